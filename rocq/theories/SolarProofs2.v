(** nextMonth, nextYear, nextHour, SolarMonth.next; constructor. *)
From Coq Require Import ZArith Lia Bool ZifyBool.
From Verif Require Import Py PyFloat FloatFacts Solar CalSpec DayNo SolarProofs.
Open Scope Z_scope.

Lemma SolarMonth_next_spec y m n : 1 <= m <= 12 -> Z.abs n <= 2 ^ 52 ->
  exists y' m', SolarMonth_next (mkSolarMonth y m) n = Ok (mkSolarMonth y' m') /\
    1 <= m' <= 12 /\ 12 * y' + m' = 12 * y + m + n.
Proof.
  intros Hm Hn. unfold SolarMonth_next. cbn [smy smm].
  rewrite int_truediv_spec by lia. cbn [bind]. rewrite Z.quot_div_nonneg by lia.
  pose proof (Z.div_mod (Z.abs n) 12 ltac:(lia)). pose proof (Z.mod_pos_bound (Z.abs n) 12 ltac:(lia)).
  set (q := Z.abs n / 12) in *. set (r := Z.abs n mod 12) in *.
  destruct (Z.ltb_spec n 0).
  - destruct (Z.ltb_spec 12 (m + r * -1)); [|destruct (Z.ltb_spec (m + r * -1) 1)];
      eexists _, _; (split; [reflexivity|lia]).
  - destruct (Z.ltb_spec 12 (m + r * 1)); [|destruct (Z.ltb_spec (m + r * 1) 1)];
      eexists _, _; (split; [reflexivity|lia]).
Qed.

Lemma nextMonth_spec s n : valid_solar s -> Z.abs n <= 2 ^ 52 ->
  exists s', nextMonth s n = Ok s' /\ valid_solar s' /\ same_time s' s /\
    12 * sy s' + sm s' = 12 * sy s + sm s + n /\
    sd s' = (if (sy s' =? 1582) && (sm s' =? 10) then (if (4 <? sd s) && (sd s <? 15) then sd s + 10 else sd s)
             else Z.min (sd s) (last_day (sy s') (sm s'))).
Proof.
  intros [V T] Hn. destruct s as [y m d h mi s]. unfold sdate in V. cbn [sy sm sd sh smi ss] in *.
  assert (Hm := proj1 V). assert (Hd := proj1 (proj2 V)).
  destruct (SolarMonth_next_spec y m n Hm Hn) as (y' & m' & E & Hm' & HE).
  unfold nextMonth. cbn [sy sm sd sh smi ss]. rewrite E. cbn [bind smy smm].
  rewrite (Z.eqb_sym 1582 y'), (Z.eqb_sym 10 m').
  pose proof (last_day_bounds y m). pose proof (last_day_bounds y' m').
  destruct ((y' =? 1582) && (m' =? 10)) eqn:G.
  - cbn [bind]. assert (y' = 1582 /\ m' = 10) as [-> ->] by lia.
    assert (V' : valid_date (1582, 10, if (4 <? d) && (d <? 15) then d + 10 else d)).
    { unfold valid_date. change (last_day 1582 10) with 31.
      destruct (Z.ltb_spec 4 d), (Z.ltb_spec d 15); cbn [andb]; lia. }
    rewrite fromYmdHms_ok by assumption.
    eexists; split; [reflexivity|]. unfold valid_solar, same_time, sdate. cbn [sy sm sd sh smi ss].
    repeat split; try apply V'; try apply T; try lia.
  - rewrite getDaysOfMonth_mlen by lia. cbn [bind]. unfold mlen. rewrite G.
    assert (V' : valid_date (y', m', if last_day y' m' <? d then last_day y' m' else d)).
    { unfold valid_date. destruct (Z.ltb_spec (last_day y' m') d); lia. }
    rewrite fromYmdHms_ok by assumption.
    eexists; split; [reflexivity|]. unfold valid_solar, same_time, sdate. cbn [sy sm sd sh smi ss].
    repeat split; try apply V'; try apply T; try lia. rewrite G.
    destruct (Z.ltb_spec (last_day y' m') d); lia.
Qed.

Lemma nextYear_spec s n : valid_solar s ->
  exists s', nextYear s n = Ok s' /\ valid_solar s' /\ same_time s' s /\
    sy s' = sy s + n /\ sm s' = sm s /\
    sd s' = (if (sy s' =? 1582) && (sm s' =? 10) then (if (4 <? sd s) && (sd s <? 15) then sd s + 10 else sd s)
             else Z.min (sd s) (last_day (sy s') (sm s'))).
Proof.
  intros [V T]. destruct s as [y m d h mi s]. unfold sdate in V. cbn [sy sm sd sh smi ss] in *.
  assert (Hm := proj1 V). assert (Hd := proj1 (proj2 V)).
  unfold nextYear. cbn [sy sm sd sh smi ss]. rewrite isLeapYear_leap.
  set (y' := y + n) in *.
  rewrite (Z.eqb_sym 1582 y'), (Z.eqb_sym 10 m), (Z.eqb_sym 2 m).
  pose proof (last_day_bounds y m). pose proof (last_day_bounds y' m).
  destruct ((y' =? 1582) && (m =? 10)) eqn:G.
  - assert (y' = 1582 /\ m = 10) as [-> ->] by lia.
    assert (V' : valid_date (1582, 10, if (4 <? d) && (d <? 15) then d + 10 else d)).
    { unfold valid_date. change (last_day 1582 10) with 31.
      destruct (Z.ltb_spec 4 d), (Z.ltb_spec d 15); cbn [andb]; lia. }
    rewrite fromYmdHms_ok by assumption.
    eexists; split; [reflexivity|]. unfold valid_solar, same_time, sdate. cbn [sy sm sd sh smi ss].
    repeat split; try apply V'; try apply T; try lia.
  - assert (D : (if m =? 2 then if 28 <? d then if leap y' then d else 28 else d else d) = Z.min d (last_day y' m)).
    { destruct (Z.eqb_spec m 2) as [->|M].
      - cbn [last_day] in *. destruct (leap y), (leap y'), (Z.ltb_spec 28 d); lia.
      - assert (last_day y' m = last_day y m) as ->; [|lia].
        dmonth m Hm; cbn; try reflexivity; lia. }
    rewrite D.
    assert (V' : valid_date (y', m, Z.min d (last_day y' m))).
    { unfold valid_date. lia. }
    rewrite fromYmdHms_ok by assumption.
    eexists; split; [reflexivity|]. unfold valid_solar, same_time, sdate. cbn [sy sm sd sh smi ss].
    repeat split; try apply V'; try apply T; try lia. rewrite G. reflexivity.
Qed.

Lemma nextHour_spec s n : valid_solar s -> Z.abs n <= 2 ^ 51 ->
  exists s', nextHour s n = Ok s' /\ valid_solar s' /\ smi s' = smi s /\ ss s' = ss s /\
    24 * dayno (sdate s') + sh s' = 24 * dayno (sdate s) + sh s + n.
Proof.
  intros V Hn. assert (T := proj2 V). destruct T as (T1 & T2 & T3).
  unfold nextHour. rewrite int_truediv_spec by lia. cbn [bind]. rewrite Z.quot_div_nonneg by lia.
  set (h := sh s + n) in *.
  pose proof (Z.div_mod (Z.abs h) 24 ltac:(lia)). pose proof (Z.mod_pos_bound (Z.abs h) 24 ltac:(lia)).
  set (q := Z.abs h / 24) in *. set (r := Z.abs h mod 24) in *.
  assert (K : exists hh dd, (let '(hour, days) := if r * (if h <? 0 then -1 else 1) <? 0
      then (r * (if h <? 0 then -1 else 1) + 24, q * (if h <? 0 then -1 else 1) - 1)
      else (r * (if h <? 0 then -1 else 1), q * (if h <? 0 then -1 else 1)) in (hour, days)) = (hh, dd)
      /\ 0 <= hh <= 23 /\ 24 * dd + hh = h).
  { destruct (Z.ltb_spec h 0); cbv zeta.
    - destruct (Z.ltb_spec (r * -1) 0); eexists _, _; (split; [reflexivity|lia]).
    - destruct (Z.ltb_spec (r * 1) 0); eexists _, _; (split; [reflexivity|lia]). }
  destruct K as (hh & dd & E & Hh & Hd).
  replace (if r * (if h <? 0 then -1 else 1) <? 0
      then (r * (if h <? 0 then -1 else 1) + 24, q * (if h <? 0 then -1 else 1) - 1)
      else (r * (if h <? 0 then -1 else 1), q * (if h <? 0 then -1 else 1))) with (hh, dd).
  2:{ rewrite <- E. destruct (_ <? 0); reflexivity. }
  unfold next. destruct (nextDay_spec s dd V) as (s' & -> & V' & (S1 & S2 & S3) & D'). cbn [bind].
  destruct V' as [V' T']. unfold sdate in V'.
  rewrite fromYmdHms_ok; [|assumption|unfold valid_time; lia].
  eexists; split; [reflexivity|]. unfold valid_solar, sdate. cbn [sy sm sd sh smi ss].
  repeat split; try apply V'; try lia.
  unfold sdate in D'. lia.
Qed.
