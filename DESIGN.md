# Formal model of lunar-python in Rocq

Source: `/repo` (6tail/lunar-python), read as text only. Nothing in `/repo` is built, run or changed.

## Method

* Python functions become total Gallina functions. A function that can raise returns `res A := Ok a | Raise e`
  (`Py.v`). Python integers are `Z`; Python floats are Coq primitive floats (`PrimFloat`, IEEE binary64, round to
  nearest even), i.e. the same arithmetic CPython uses. Strings are lists of code points (`list Z`).
* Loops are structural recursion or run on explicit binary fuel with a `NonTermination` outcome; the theorems show
  this outcome is never reached.
* Specifications are separate small definitions which do not call the model: the civil calendar is "the day after"
  relation plus the 1582 jump (`CalSpec.v`), lunar tables are month lists that tile the day line, the sexagenary cycle
  is arithmetic modulo 60 (`stem`, `branch`, `pair60` of `P_Tables.v`), the holiday data base is a list of records,
  the year cache is a transition system over threads.
* Infinite domains are handled by induction and arithmetic (`lia`). Finite tables (60 pillars, 12 branches, packed
  texts) are decided by `vm_compute` on a boolean and lifted with `forallb_forall`.
* Where the faithful model violates the English property, the property says so in a "Defect" clause, a theorem
  `…_refuted` exhibits the witness, and the part that does hold is proved beside it.
* Beside each theorem an example `Cnn_case` gives a concrete case that meets its hypotheses.

## Layout (rocq/theories)

| files | content |
|---|---|
| `Py`, `PyFloat`, `PyStr` | Python primitives: results and exceptions, integer division, loops with fuel, floats, strings, formatting |
| `T_*` | tables, generated by `tools/gen_tables.py` from the text of `/repo` |
| `Solar`, `SolarUnits` | Solar, SolarUtil, SolarWeek/Month/Season/HalfYear/Year |
| `LunarUtil`, `Holiday` | functions of LunarUtil; HolidayUtil, Holiday and stepping over working days |
| `ShouXing` | ShouXingUtil in binary64 |
| `LunarYear`, `Lunar`, `LunarTime`, `NineStar` | LunarYear, LunarMonth, Lunar, LunarTime, NineStar |
| `Texts` | `toString` and `toFullString` of the smaller classes, Tai Sui directions in words |
| `EightChar`, `FotoTao` | EightChar, Yun, DaYun, LiuNian, XiaoYun, LiuYue; Foto, Tao, FotoUtil, TaoUtil, Solar.fromBaZi |
| `LunarState`, `PyDate` | Lunar and EightChar objects on a heap, JieQi setters; `fromDate` and Python's datetime |
| `LunarCache` | LunarYear.fromYear with its lock and cache as a transition system over threads |
| `Demo` | year tables used by examples only |
| `CalSpec`, `DayNo` | specification of the civil calendar; day numbers |
| `FloatFacts`, `FloatTac`, `Meeus`, `JulianDay`, `FromJulianDay` | error analysis through Flocq |
| `FloatExpr`, `Trig` | a checked bound on the rounding error of float expressions; a sine and cosine written in binary64 |
| `SunLon`, `SunDt`, `SunTerm`, `SunQi`, `SunLate`, `SunInv`, `SunKb`, `SunYear`, `SunDate`, `TermEst` | error analysis of the series for the sun, of the instants of the solar terms, and of the days and dates found from them |
| `Cert`, `CertSky`, `CertTerms`, `CertZhong`, `CertYears`, `MoonLite`, `MoonCut`, `MoonFast`, `MoonEdge`, `CertFast`, `RealYears` | floats that carry a proved error bound; new moons and solar terms computed with them; the dates of the terms of 524..1582 and 4040..9998, the month tables of 615..9999 and, from 1646 on, the places of the terms among the months and (to 5000) the days of the true new moons decided by them; what follows for the code's own tables |
| `EarlyYears` | the month tables of 0..241, in which the calendar reforms fall |
| `SolarProofs`, `SolarProofs2`, `UnitsProofs`, `AlmanacProofs`, `HolidayProofs`, `HolidayRecs`, `LunarProofs`, `TermProofs`, `YearProofs`, `CalProofs`, `CalCheck` | lemmas |
| `P_*` | the property theorems `Cnn_…`, one or a few properties per file (see the first line of each file) |

`tools/props.py` writes `properties.jsonl`; `tools/manifest.py` writes `MANIFEST.json` from the theorem names and the
notes in `tools/status.json`; `tools/mutate.py` seeds wrong edits (log in `seeded/LOG.jsonl`; an edit that does not typecheck is not logged, and `inconclusive` means the
proofs only ran out of time);
`tools/assumptions.py` runs `Print Assumptions` on every theorem and groups the result; `tools/suite.py` translates the
project's own tests (`/repo/test`, read as text) into terms of the model and has Coq compute them, with the sine and
cosine of `Trig.v`: all 335 assertions of the 22 test files hold of the model.  That is evidence that the model follows
the code, not part of any proof.

## What is modelled

Every function of every file of `lunar_python`, with these exceptions and simplifications.

* Python's `datetime` is modelled only as far as `fromDate` and its comparison with this calendar need it (`PyDate.v`:
  a proleptic Gregorian date with time, `toordinal`, `isoweekday`; no time zones). Not modelled: the current
  time (the upper year of `Solar.fromBaZi` is a parameter `end_year`); `__str__`
  (always `toString`); plain getters and setters of a stored field (a record field in the model); accessors that
  only forward to another object (`getFoto`, `getTao`, `getBaZiShiShenYearZhi` and its three siblings).
* `math.sin` and `math.cos` are parameters `fsin fcos : float -> float` of the model of ShouXingUtil, since CPython
  takes them from the C library. A theorem about the code's own sky holds for whatever functions are put there,
  under the hypotheses it states.
* `LunarYear.fromYear` is a parameter `fy : Z -> res LYear` of everything above LunarYear. `LunarCache.v` models its
  cache and lock; `C34_transparent` proves that in every interleaving it returns what the constructor returns.
  Asynchronous exceptions (KeyboardInterrupt inside the critical section) are not modelled.
* Arguments have the documented types. Passing strings or floats for integers is out of scope.
* Integers outside the range in which `float(n)` is computed by the model (`2^62` in absolute value) are treated as a
  raised exception; theorems about float operations on integers state narrower ranges.
* Objects are values: identity and mutability only matter in `LunarCache.v` (lists shared with the cache, C36), in
  the holiday data base (C30-C33), and in `LunarState.v` (the EightChar that a Lunar makes once and keeps, `setSect`, the
  term table, `JieQi.setName`; C96, C97), where they are part of the model. Elsewhere `getEightChar` makes a new
  EightChar with sect 2.

## Hypotheses that recur

* `libm fsin fcos` (`FloatExpr.v`): for arguments up to `2^23` in absolute value the C library's `sin` and `cos` return a
  finite number within `2^-40` of the true value (common libraries are within `2^-52`). `libm_ref` shows it of
  the functions `rsin`, `rcos` of `Trig.v`, so it can be met.
* `Calendar fy lo hi` (`CalProofs.v`): the tables of the years `lo..hi` have 15 months each that tile the day line,
  neighbouring tables agree on the months they share, the terms convert to dates. Proved of the code's own tables
  for 0..18 and 19..9999 (`C46_code`, under `libm`): up to 616 the month tables do not depend on `sin` and `cos`
  (`C46_real_calendar`); from 615 on each new moon and each solar term is recomputed in floats that carry a proved
  bound on their distance from what any such library makes of the same formula (`Cert.v`, `CertSky.v`), and every
  comparison and rounding to a day is decided by those bounds (`CertYears.v`, to 3004). From 3003 on the months
  are not built one by one: an estimate of each new moon with a proved bound (`MoonLite.v`) fixes its day unless the
  moon falls close to midnight, a shortened series with a proved bound on what was left out (`MoonCut.v`) decides
  those, and `MoonFast.v` derives the shape of the year tables from the days of the moons and of the winter
  solstices. `MoonEdge.v` bounds the whole series for moon and sun and their speeds, so that the sign of the
  difference at one instant of a day decides it before or after (C99). Two more
  instances are proved for the examples: `demo_calendar` (tables of 2023..2025) and `mean_calendar` (a sky of equal
  months and seasons, 2023..2032).
* `good_terms Y jq` (`TermProofs.v`): the 31 terms of a table are increasing dates of the years 0..9999, and the first
  terms, 立春 and the last terms fall in the expected solar years. `C59_dates` derives it from `libm` for 1..9998
  (from 524 to 1582 and from 4040 on by estimates with a proved error, `TermEst.v`, and by computing the instants
  near the end of a month as above, `CertTerms.v`).
* `Seasons fy lo hi` (`P_BaZi.v`): `good_terms` for each year, consecutive tables agree on the terms they share. Proved
  of the code's own tables for 1..9998 (`real_Seasons`, under `libm`). `YearSeasons` adds that the first day of a lunar
  year lies in the solar year of the same number (`real_YearSeasons`, 20..9998).
* `civil fy lo hi` (`P_LunarYears.v`): no month belongs to a lunar year ahead of its solar year. Proved of the code's own
  tables for 20..9999 (`C46_code`; `EarlyYears.v` for the years of the calendar reforms); false of AD 16 and AD 19, whose
  first month begins in December (`C68_refuted_code`).

`P_Real.v` restates the properties that depend on these for the code itself (theorems `Cnn_code`), with `libm` as the
only hypothesis on the environment and explicit ranges of years.

## Trusted base

* The Coq 8.16.1 kernel, including its primitive `Int63`/`PrimFloat` arithmetic and `vm_compute`.
* That this hand-written model reflects the Python text (each definition cites file and lines).
* `math.sin`/`math.cos`: nothing is assumed except where a theorem states it.
* What `Print Assumptions` lists (`python3 tools/assumptions.py` after a build):
  * 185 theorems (with their examples) are closed under the global context;
  * 178 list only the types and operations of primitive integers and floats (`PrimInt63.int`, `PrimInt63.add`, `sub`,
    `land`, `lor`, `lsl`, `lsr`, `eqb`, `leb`, `ltb`; `PrimFloat.float`, `abs`, `opp`, `add`, `sub`, `mul`, `div`,
    `eqb`, `ltb`, `leb`, `of_uint63`, `normfr_mantissa`, `frshiftexp`, `ldshiftexp`), which `Print Assumptions`
    shows because they are implemented by the kernel;
  * the others (those that reason about the values of floats, through Flocq) list in addition axioms of the standard
    library: `FloatAxioms` (`Prim2SF_valid`, `Prim2SF_SF2Prim`, `SF2Prim_Prim2SF`, `add_spec`, `sub_spec`, `mul_spec`,
    `div_spec`, `opp_spec`, `abs_spec`, `ltb_spec`, `leb_spec`, `of_uint63_spec`), `Uint63` (`add_spec`, `sub_spec`, `lor_spec`, `lsl_spec`,
    `lsr_spec`, `leb_spec`, `ltb_spec`, `eqb_correct`, `eqb_refl`, `of_to_Z`), and those of the classical reals
    `ClassicalDedekindReals.sig_forall_dec`, `sig_not_dec`, `FunctionalExtensionality.functional_extensionality_dep`,
    `Classical_Prop.classic`.
  No axiom is declared in this development.
* `coqchk` re-checks every file; it evaluates `vm_compute` proofs by its own slower reduction, so heavy evaluations
  are kept out of proofs (tables are normalised by `Eval vm_compute in` definitions).
