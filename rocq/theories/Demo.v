(** Concrete year tables for the examples beside the theorems: the model's own LunarYear tables of 2023 to 2025,
    computed with a Taylor series in place of the C library's [sin] and [cos].  Nothing is proved from them. *)
From Coq Require Import ZArith Lia Bool List String Floats.
From Verif Require Import Py PyFloat PyStr Solar LunarUtil T_LunarUtil T_Misc ShouXing LunarYear Lunar.
Import ListNotations.
Open Scope Z_scope.
Local Set Warnings "-inexact-float".

(** x - 2 pi round(x / 2 pi), with 2 pi in two parts *)
Definition reduce2pi (x : float) : float :=
  match py_floor (x / 6.283185307179586 + 0.5)%float with
  | Ok n => let k := float_of_Z n in ((x - k * 6.28318500518798828125) - k * 3.0199159819557e-7)%float
  | Raise _ => x
  end.
Fixpoint taylor (n : nat) (k : Z) (x2 term acc : float) : float :=
  match n with
  | O => acc
  | Datatypes.S n =>
      let acc := (acc + term)%float in
      taylor n (k + 2) x2 (- (term * x2 / (float_of_Z (k + 1) * float_of_Z (k + 2))))%float acc
  end.
Definition demo_sin (x : float) : float := let r := reduce2pi x in taylor 16 1 (r * r)%float r 0%float.
Definition demo_cos (x : float) : float := let r := reduce2pi x in taylor 16 0 (r * r)%float 1%float 0%float.

Definition demo_table (y : Z) : res LYear := LunarYear_new (shouxing demo_sin demo_cos) y.
Definition demo2023 : res LYear := Eval vm_compute in demo_table 2023.
Definition demo2024 : res LYear := Eval vm_compute in demo_table 2024.
Definition demo2025 : res LYear := Eval vm_compute in demo_table 2025.
Definition demo (y : Z) : res LYear :=
  if y =? 2023 then demo2023 else if y =? 2024 then demo2024 else if y =? 2025 then demo2025 else Raise ExcValue.

(** Two years of the calendar of Wang Mang (AD 9-23), for the counterexamples: these are the code's tables. *)
Definition demo15 : res LYear := Eval vm_compute in demo_table 15.
Definition demo16 : res LYear := Eval vm_compute in demo_table 16.
Lemma demo15_eq : demo_table 15 = demo15.
Proof. vm_compute. reflexivity. Qed.
Lemma demo16_eq : demo_table 16 = demo16.
Proof. vm_compute. reflexivity. Qed.
Definition demo_wm (y : Z) : res LYear := if y =? 15 then demo15 else if y =? 16 then demo16 else demo_table y.
Lemma demo_wm_eq y : demo_wm y = demo_table y.
Proof.
  unfold demo_wm. destruct (Z.eqb_spec y 15) as [->|]; [now rewrite demo15_eq|].
  destruct (Z.eqb_spec y 16) as [->|]; [now rewrite demo16_eq|reflexivity].
Qed.

(** A Lunar only depends on the tables as a function of the year. *)
Lemma Lunar_new_ext f g y m d h mi s : (forall y, f y = g y) -> Lunar_new f y m d h mi s = Lunar_new g y m d h mi s.
Proof.
  intros E. unfold Lunar_new. rewrite E. destruct (g y) as [t|]; cbn [bind]; [|reflexivity].
  destruct (getMonth t m) as [mo|]; [|reflexivity]. destruct (d <? 1); [reflexivity|]. destruct (mcount mo <? d); [reflexivity|].
  destruct (fromJulianDay _) as [noon|]; cbn [bind]; [|reflexivity].
  destruct (fromYmdHms _ _ _ _ _ _); cbn [bind]; [|reflexivity]. now rewrite E.
Qed.
Lemma getLunar_ext f g s : (forall y, f y = g y) -> getLunar f s = getLunar g s.
Proof.
  intros E. unfold getLunar. rewrite E. destruct (g (sy s)); cbn [bind]; [|reflexivity].
  destruct (find_month _ _) as [[[y m] d]|]; cbn [bind]; [|reflexivity]. now apply Lunar_new_ext.
Qed.
