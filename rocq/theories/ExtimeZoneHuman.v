(** * epsilon/extime.py: asHumanly in timezones with summer time

    The zones are those of ExtimeZone.v. *)

From Coq Require Import ZArith NArith String List Bool Lia.
From Verif Require Import Py PyNum Cal PyTime PyInt Extime ExtimeRfc ExtimeZone ExtimeHumanly ExtimeHumanlyVal ExtimeHumanlyFmt.
Import ListNotations.
Open Scope Z_scope.
Open Scope py_scope.

(** extime.py:812-854, asHumanly with a tzinfo; see [asHumanly] for the simplifications *)
Definition asHumanlyZ (self : time) (z : tzone) (now : time) (p : precision) : res str :=
  seconds <- (match p with MINUTES => Ok false | SECONDS => Ok true | OtherPrecision => Err (OtherExn 0) end) ;;
  n <- asDatetimeZ now z ;;
  x <- asDatetimeZ self z ;;
  let f := fields_of x in
  let g := fields_of n in
  if (d_year (f_date f) =? d_year (f_date g)) && (d_month (f_date f) =? d_month (f_date g)) && (d_day (f_date f) =? d_day (f_date g)) then
    if isAllDay self then Ok (lit "all day") else Ok (clock12 seconds f)
  else
    Ok (zdec (d_day (f_date f)) ++ lit " " ++ at_index rfc2822Months (d_month (f_date f) - 1) ++
        (if d_year (f_date f) =? d_year (f_date g) then [] else lit " " ++ zdec (d_year (f_date f))) ++
        (if isAllDay self then [] else lit ", " ++ clock12 seconds f)).

(** ** Specification *)

(** the local time at which a summer zone shows the instant [i] (C158) *)
Definition shown (std save : Z) (summer : Z -> bool) (i : Z) : Z := if summer (i + std) then i + std + save else i + std.

(** ** Proofs *)

Lemma outZ t z now (sec : bool) n x : asDatetimeZ now z = Ok n -> asDatetimeZ t z = Ok x ->
  asHumanlyZ t z now (if sec then SECONDS else MINUTES) = Ok (human_out sec (isAllDay t) (fields_of x) (fields_of n)).
Proof.
  intros En Ex. unfold asHumanlyZ. assert (Es : (match (if sec then SECONDS else MINUTES) with MINUTES => Ok false | SECONDS => Ok true | OtherPrecision => Err (OtherExn 0) end) = Ok sec) by (now destruct sec).
  rewrite Es, En, Ex. cbn [rbind]. unfold human_out, same_day.
  destruct (_ && _ && _); [destruct (isAllDay t); reflexivity|]. unfold date_part, year_part, clock_part. rewrite <- !app_assoc. reflexivity.
Qed.

Lemma same_minute l l' : 0 <= l < MAXT -> 0 <= l' < MAXT -> let f := fields_of l in let g := fields_of l' in
  f_date f = f_date g -> f_hour f = f_hour g -> f_min f = f_min g -> l / MINUTE = l' / MINUTE /\ (f_sec f = f_sec g -> l / SECOND = l' / SECOND).
Proof.
  intros Hl Hl' f g Ed Eh Em.
  assert (K : forall v, 0 <= v < MAXT -> v = (ymd2ord (f_date (fields_of v)) - 1) * DAY + day_us (fields_of v)).
  { intros v Hv. destruct (datetime_fields v Hv) as [_ D]. unfold datetime in D. destruct (fields_okb (fields_of v)); [|discriminate]. congruence. }
  pose proof (K l Hl) as D. pose proof (K l' Hl') as D'. fold f in D. fold g in D'. rewrite <- Ed in D'. set (o := ymd2ord (f_date f)) in *. clearbody o.
  unfold day_us in D, D'. rewrite <- Eh, <- Em in D'. clear K Ed Hl Hl'. unfold f, g in *. cbn [fields_of f_hour f_min f_sec f_us] in *. clear f g.
  revert D D' Eh Em. unfold DAY, HOUR, MINUTE, SECOND. intros. split; [|intros]; lia.
Qed.

Lemma minute_fields l l' : l / MINUTE = l' / MINUTE -> f_date (fields_of l) = f_date (fields_of l') /\ f_hour (fields_of l) = f_hour (fields_of l') /\ f_min (fields_of l) = f_min (fields_of l').
Proof.
  intros H. unfold fields_of. cbn [f_date f_hour f_min]. assert (D : l / DAY = l' / DAY) by (unfold DAY, MINUTE in *; lia). rewrite D. split; [reflexivity|].
  unfold DAY, HOUR, MINUTE in *. lia.
Qed.

Lemma second_minute l l' : l / SECOND = l' / SECOND -> l / MINUTE = l' / MINUTE /\ f_sec (fields_of l) = f_sec (fields_of l').
Proof. intros H. unfold fields_of. cbn [f_sec]. unfold SECOND, MINUTE in *. lia. Qed.

Lemma clock_cong (sec : bool) f g : f_hour f = f_hour g -> f_min f = f_min g -> (sec = true -> f_sec f = f_sec g) -> clock12 sec f = clock12 sec g.
Proof. intros A B C. unfold clock12. rewrite A, B. destruct sec; [now rewrite C|reflexivity]. Qed.

Lemma out_cong sec f g h : f_date f = f_date g -> clock12 sec f = clock12 sec g -> human_out sec false f h = human_out sec false g h.
Proof. intros A B. unfold human_out, clock_part. now rewrite A, B. Qed.

Lemma shown_range std save summer t : usable std save t -> 0 <= shown std save summer (t_us t) < MAXT.
Proof. intros H. exact (proj1 (proj2 (off_after std save summer t H))). Qed.

(** the same text exactly for the same minute, or second, of the local clock *)
Theorem texts_same std save (summer : Z -> bool) t u now (sec : bool) : usable std save t -> usable std save u -> usable std save now ->
  t_res t < DAY -> t_res u < DAY -> t_res now < DAY ->
  let z := summer_zone std save summer in let p := if sec then SECONDS else MINUTES in let r := if sec then SECOND else MINUTE in
  exists a b, asHumanlyZ t z now p = Ok a /\ asHumanlyZ u z now p = Ok b /\
    (a = b <-> shown std save summer (t_us t) / r = shown std save summer (t_us u) / r).
Proof.
  intros Ht Hu Hn Rt Ru Rn z p r. destruct (short_flags t Rt) as [At Dt]. destruct (short_flags u Ru) as [Au Du]. destruct (short_flags now Rn) as [_ Dn].
  pose proof (summer_shows std save summer now Hn Dn) as En. pose proof (summer_shows std save summer t Ht Dt) as Et. pose proof (summer_shows std save summer u Hu Du) as Eu.
  fold (shown std save summer (t_us now)) in En. fold (shown std save summer (t_us t)) in Et. fold (shown std save summer (t_us u)) in Eu.
  eexists; eexists. split; [exact (outZ t z now sec _ _ En Et)|]. split; [exact (outZ u z now sec _ _ En Eu)|]. rewrite At, Au.
  pose proof (shown_range std save summer t Ht) as Lt. pose proof (shown_range std save summer u Hu) as Lu.
  set (x := shown std save summer (t_us t)) in *. set (y := shown std save summer (t_us u)) in *. clearbody x y. split.
  - intros E. apply out_inj in E; [|apply datetime_fields; assumption|apply datetime_fields; assumption]. destruct E as (E1 & _ & E2). destruct (E2 eq_refl) as (E3 & E4 & E5).
    destruct (same_minute x y Lt Lu E1 E3 E4) as [M S]. unfold r. destruct sec; [apply S, E5; reflexivity|exact M].
  - intros E. unfold r in E. assert (M : x / MINUTE = y / MINUTE) by (destruct sec; [now apply second_minute|exact E]).
    destruct (minute_fields x y M) as (F1 & F2 & F3). apply out_cong; [exact F1|]. apply clock_cong; [exact F2|exact F3|]. intros ->. apply second_minute. exact E.
Qed.

(** so the instants are of the same minute, or apart by the saving around the end of summer *)
Lemma shown_same std save (summer : Z -> bool) i j r : r = SECOND \/ r = MINUTE -> std mod r = 0 -> save mod r = 0 ->
  (shown std save summer i / r = shown std save summer j / r <->
   (summer (i + std) = summer (j + std) /\ i / r = j / r) \/
   (summer (i + std) = true /\ summer (j + std) = false /\ i / r * r + save = j / r * r) \/
   (summer (i + std) = false /\ summer (j + std) = true /\ j / r * r + save = i / r * r)).
Proof.
  intros Hr Hs Hv. unfold shown. assert (P : 0 < r) by (destruct Hr; subst; reflexivity).
  rewrite (Z.div_mod std r) by lia. rewrite (Z.div_mod save r) by lia. rewrite Hs, Hv. rewrite !Z.add_0_r. set (a := std / r). set (b := save / r).
  assert (D1 : forall k, (k + r * a + r * b) / r = k / r + a + b) by (intros k; replace (k + r * a + r * b) with (k + (a + b) * r) by lia; rewrite Z.div_add by lia; lia).
  assert (D2 : forall k, (k + r * a) / r = k / r + a) by (intros k; replace (k + r * a) with (k + a * r) by lia; now rewrite Z.div_add by lia).
  destruct (summer (i + r * a)), (summer (j + r * a)); rewrite ?D1, ?D2; (split; [intros H|intros [[X Y]|[(X & Y & W)|(X & Y & W)]]; try discriminate]).
  all: try (left; split; [reflexivity|lia]); try lia.
  all: first [right; left; split; [reflexivity|]; split; [reflexivity|]; nia|right; right; split; [reflexivity|]; split; [reflexivity|]; nia|nia].
Qed.

(** what is written of a time later today, typed *)
Theorem typed_back std save (summer : Z -> bool) t now : usable std save t -> usable std save now -> t_res t < DAY -> t_res now < DAY ->
  7 * DAY <= t_us now < MAXT - 7 * DAY -> std mod MINUTE = 0 -> save mod MINUTE = 0 -> (forall l, summer (l - l mod MINUTE) = summer l) ->
  let z := summer_zone std save summer in let x := shown std save summer (t_us t) in let n := shown std save summer (t_us now) in
  x / DAY = n / DAY -> n / MINUTE <= x / MINUTE ->
  exists h m s u, asHumanlyZ t z now MINUTES = Ok s /\ clock_text s h m /\ fromClockZ now z h m = Ok u /\
    t_us u = (if ending std save summer (t_us t) then t_us t + save else t_us t) - t_us t mod MINUTE.
Proof.
  intros Ht Hn Rt Rn Hb Hs Hv Hw z x n Hd Hl. destruct (short_flags t Rt) as [At Dt]. destruct (short_flags now Rn) as [_ Dn].
  pose proof (summer_shows std save summer now Hn Dn) as En. pose proof (summer_shows std save summer t Ht Dt) as Et.
  fold (shown std save summer (t_us now)) in En. fold (shown std save summer (t_us t)) in Et. fold n in En. fold x in Et. fold z in En, Et.
  pose proof (shown_range std save summer t Ht) as Lx. pose proof (shown_range std save summer now Hn) as Ln. fold x in Lx. fold n in Ln.
  destruct (datetime_fields x Lx) as [Vx _]. pose proof Vx as (_ & _ & Bh & Bm & _).
  assert (Bn : 0 <= n < MAXT - DAY) by (pose proof Hn as (U1 & U2 & U3 & U4); unfold n, shown in *; destruct (summer (t_us now + std)); unfold DAY in *; lia).
  exists (f_hour (fields_of x)), (f_min (fields_of x)). destruct (clock_reads now z (f_hour (fields_of x)) (f_min (fields_of x)) n Bh Bm En Bn) as (L & N & R).
  assert (EL : L = x - x mod MINUTE).
  { unfold next_local in N. unfold fields_of in N. cbn [f_hour f_min] in N. clear - N Hd Hl. clearbody x n. unfold DAY, HOUR, MINUTE in *. lia. }
  destruct (off_after std save summer t Ht) as (O1 & O2 & O3 & O4). fold (shown std save summer (t_us t)) in O1, O2, O3, O4. fold x in O1, O2, O3, O4. fold z in O1, O3, O4.
  assert (Ez : z_off z L = z_off z x) by (rewrite EL; unfold z; cbn [summer_zone z_off]; now rewrite Hw).
  assert (Em : x mod MINUTE = t_us t mod MINUTE) by (unfold x, shown; destruct (summer (t_us t + std)); unfold MINUTE in *; lia).
  exists (clock12 false (fields_of x)). rewrite (proj2 (reads_Ok L z (T (L - z_off z L) 1))) in R.
  - cbn [rbind t_us] in R. eexists. split; [|split; [apply clock12_text; exact Vx|split; [exact R|]]].
    + pose proof (outZ t z now false n x En Et) as O. cbn iota in O. rewrite O, At. f_equal. unfold human_out.
      replace (same_day _ _) with true; [reflexivity|]. symmetry. apply same_day_eq. unfold fields_of. cbn [f_date]. now rewrite Hd.
    + cbn [t_us]. rewrite Ez, EL, Em. clear - O4. destruct (ending std save summer (t_us t)); lia.
  - rewrite Ez. split; [exact O1|]. split; [|reflexivity]. rewrite EL. pose proof Ht as (U1 & U2 & U3 & U4). clear - O4 O3 U2 U4 Em. pose proof (Z.mod_pos_bound x MINUTE eq_refl). unfold MINUTE, DAY in *. destruct (ending std save summer (t_us t)); lia.
Qed.
