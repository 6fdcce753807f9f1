(** * C171 and C172: texts for people in timezones with summer time *)

From Coq Require Import ZArith NArith String List Bool Lia.
From Verif Require Import Py PyNum Cal PyTime Extime ExtimeZone ExtimeZoneProps ExtimeHumanly ExtimeHumanlyVal ExtimeZoneHuman.
Import ListNotations.
Open Scope Z_scope.

(** ** C171: different times look different *)

Definition C171_full : Prop := forall std save (summer : Z -> bool) t u now s, usable std save t -> usable std save u -> usable std save now ->
  t_res t < DAY -> t_res u < DAY -> t_res now < DAY -> std mod SECOND = 0 -> save mod SECOND = 0 ->
  asHumanlyZ t (summer_zone std save summer) now SECONDS = Ok s -> asHumanlyZ u (summer_zone std save summer) now SECONDS = Ok s ->
  t_us t / SECOND = t_us u / SECOND.

(** In New York at the end of summer, half past six and half past seven in Greenwich. *)
Theorem C171_same_refuted : let now := T (t_us t0 - 2 * HOUR) 1 in let u := T (t_us t0 + HOUR) 1 in
  asHumanlyZ t0 ny now SECONDS = Ok (lit "02:30:00 am") /\ asHumanlyZ u ny now SECONDS = Ok (lit "02:30:00 am") /\ ~ C171_full.
Proof.
  cbv zeta. split; [vm_compute; reflexivity|]. split; [vm_compute; reflexivity|]. intros F.
  specialize (F (-5 * HOUR) HOUR ny_summer t0 (T (t_us t0 + HOUR) 1) (T (t_us t0 - 2 * HOUR) 1) (lit "02:30:00 am")).
  assert (C : t_us t0 / SECOND = t_us (T (t_us t0 + HOUR) 1) / SECOND).
  { apply F; try (unfold usable, t0, HOUR, MAXT, DAY; cbn [t_us]; lia); vm_compute; reflexivity. }
  vm_compute in C. discriminate.
Qed.
Print Assumptions C171_same_refuted.

(** Exactly: the texts are the same if the times are of the same minute (or second), both
    or neither in summer, or apart by the saving, the earlier in summer and the later
    not. *)
Theorem C171_exact_partial : forall std save (summer : Z -> bool) t u now (sec : bool), usable std save t -> usable std save u -> usable std save now ->
  t_res t < DAY -> t_res u < DAY -> t_res now < DAY ->
  let r := if sec then SECOND else MINUTE in std mod r = 0 -> save mod r = 0 ->
  exists a b, asHumanlyZ t (summer_zone std save summer) now (if sec then SECONDS else MINUTES) = Ok a /\
    asHumanlyZ u (summer_zone std save summer) now (if sec then SECONDS else MINUTES) = Ok b /\
    (a = b <->
     (summer (t_us t + std) = summer (t_us u + std) /\ t_us t / r = t_us u / r) \/
     (summer (t_us t + std) = true /\ summer (t_us u + std) = false /\ t_us t / r * r + save = t_us u / r * r) \/
     (summer (t_us t + std) = false /\ summer (t_us u + std) = true /\ t_us u / r * r + save = t_us t / r * r)).
Proof.
  intros std save summer t u now sec Ht Hu Hn Rt Ru Rn r Hs Hv. destruct (texts_same std save summer t u now sec Ht Hu Hn Rt Ru Rn) as (a & b & Ea & Eb & H).
  exists a, b. split; [exact Ea|]. split; [exact Eb|]. rewrite H. apply shown_same; [unfold r; destruct sec; auto|exact Hs|exact Hv].
Qed.
Print Assumptions C171_exact_partial.

Example C171_nonvacuous : let now := T (t_us t0 - 2 * HOUR) 1 in usable (-5 * HOUR) HOUR t0 /\ usable (-5 * HOUR) HOUR now /\ (-5 * HOUR) mod MINUTE = 0 /\
  asHumanlyZ (T (t_us t0 - HOUR) 1) ny now MINUTES = Ok (lit "01:30 am") /\
  asHumanlyZ (T (t_us t0 + 30 * DAY) 1) ny now MINUTES = Ok (lit "29 Nov, 01:30 am") /\ asHumanlyZ (T (t_us t0 - 30 * DAY) 1) ny now MINUTES = Ok (lit "30 Sep, 02:30 am").
Proof. cbv zeta. do 2 (split; [unfold usable, t0, HOUR, MAXT, DAY; cbn [t_us]; lia|]). split; [reflexivity|]. repeat split; vm_compute; reflexivity. Qed.

(** ** C172: the text of a time later today, typed *)

(** later on the same day of the local clock *)
Definition later (std save : Z) (summer : Z -> bool) (t now : time) : Prop :=
  let x := shown std save summer (t_us t) in let n := shown std save summer (t_us now) in x / DAY = n / DAY /\ n / MINUTE <= x / MINUTE.

(** the clock time written, typed, is the minute it was written of *)
Definition C172_full : Prop := forall std save (summer : Z -> bool) t now s h m, usable std save t -> usable std save now -> t_res t < DAY -> t_res now < DAY ->
  7 * DAY <= t_us now < MAXT - 7 * DAY -> std mod MINUTE = 0 -> save mod MINUTE = 0 -> (forall l, summer (l - l mod MINUTE) = summer l) -> later std save summer t now ->
  asHumanlyZ t (summer_zone std save summer) now MINUTES = Ok s -> clock_text s h m ->
  exists u, fromClockZ now (summer_zone std save summer) h m = Ok u /\ t_us u = t_us t - t_us t mod MINUTE.

(** In the last hour of summer it is an hour later. *)
Theorem C172_typed_refuted : let now := T (t_us t0 - 2 * HOUR) 1 in
  asHumanlyZ t0 ny now MINUTES = Ok (lit "02:30 am") /\ fromClockZ now ny 2 30 = Ok (T (t_us t0 + HOUR) MINUTE) /\ ~ C172_full.
Proof.
  cbv zeta. assert (E : asHumanlyZ t0 ny (T (t_us t0 - 2 * HOUR) 1) MINUTES = Ok (lit "02:30 am")) by (vm_compute; reflexivity). split; [exact E|]. split; [vm_compute; reflexivity|]. intros F.
  assert (C : exists u, fromClockZ (T (t_us t0 - 2 * HOUR) 1) ny 2 30 = Ok u /\ t_us u = t_us t0 - t_us t0 mod MINUTE).
  { apply (F (-5 * HOUR) HOUR ny_summer t0 (T (t_us t0 - 2 * HOUR) 1) (lit "02:30 am") 2 30).
    1, 2, 5: unfold usable, t0, HOUR, MAXT, DAY; cbn [t_us]; lia.
    1, 2, 3, 4: reflexivity.
    - intros l. unfold ny_summer, MINUTE. lia.
    - split; [vm_compute; reflexivity|vm_compute; discriminate].
    - exact E.
    - assert (P : padded (lit "02" ++ lit ":" ++ lit "30" ++ lit " " ++ lit "am") (lit "02:30 am")) by (exists [], []; repeat split; constructor).
      refine (CT_am (lit "02:30 am") (lit "02") (lit "30") (lit " ") (lit "am") 2 30 _ _ _ _ _ _ P).
      + repeat split; try discriminate. now right.
      + lia.
      + repeat split. discriminate.
      + reflexivity.
      + repeat constructor.
      + reflexivity. }
  destruct C as (u & Eu & C). vm_compute in Eu. injection Eu as <-. vm_compute in C. discriminate.
Qed.
Print Assumptions C172_typed_refuted.

(** Exactly: the minute it was written of, later by the saving in the last hour of
    summer. *)
Theorem C172_exact_partial : forall std save (summer : Z -> bool) t now, usable std save t -> usable std save now -> t_res t < DAY -> t_res now < DAY ->
  7 * DAY <= t_us now < MAXT - 7 * DAY -> std mod MINUTE = 0 -> save mod MINUTE = 0 -> (forall l, summer (l - l mod MINUTE) = summer l) -> later std save summer t now ->
  exists h m s u, asHumanlyZ t (summer_zone std save summer) now MINUTES = Ok s /\ clock_text s h m /\ fromClockZ now (summer_zone std save summer) h m = Ok u /\
    t_us u = (if summer (t_us t + std) && negb (summer (t_us t + std + save)) then t_us t + save else t_us t) - t_us t mod MINUTE.
Proof. intros std save summer t now Ht Hn Rt Rn Hb Hs Hv Hw [L1 L2]. exact (typed_back std save summer t now Ht Hn Rt Rn Hb Hs Hv Hw L1 L2). Qed.
Print Assumptions C172_exact_partial.

Example C172_nonvacuous : let now := T (t_us t0 - 2 * HOUR) 1 in let t := T (t_us t0 + 9 * HOUR) 1 in
  usable (-5 * HOUR) HOUR t /\ usable (-5 * HOUR) HOUR now /\ 7 * DAY <= t_us now < MAXT - 7 * DAY /\ (forall l, ny_summer (l - l mod MINUTE) = ny_summer l) /\
  later (-5 * HOUR) HOUR ny_summer t now /\ asHumanlyZ t ny now MINUTES = Ok (lit "10:30 am") /\ fromClockZ now ny 10 30 = Ok (T (t_us t) MINUTE).
Proof.
  cbv zeta. do 3 (split; [unfold usable, t0, HOUR, MAXT, DAY; cbn [t_us]; lia|]). split; [intros l; unfold ny_summer, MINUTE; lia|].
  split; [split; [vm_compute; reflexivity|vm_compute; discriminate]|]. split; vm_compute; reflexivity.
Qed.
