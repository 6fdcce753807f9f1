(** * epsilon/scripts/benchmark.py: disk statistics, mounts, child processes *)

From Coq Require Import ZArith NArith String List Bool Arith Lia.
From Verif Require Import Py PyStr PyInt PySplit Utf8 Structlike Delayed.
Import ListNotations.
Open Scope nat_scope.

(** ** Disk statistics *)

Definition bytes_split (L : str) : list str := split_ws_aux is_space_b [] L.

(** benchmark.py:24-27, 35-36 *)
Definition diskstat_names : list str := split_ws (lit "readCount mergedReadCount readSectorCount readMilliseconds writeCount mergedWriteCount writeSectorCount writeMilliseconds outstandingIOCount ioMilliseconds weightedIOMilliseconds").
Definition partitionstat_names : list str := split_ws (lit "readCount readSectorCount writeCount writeSectorCount").

Inductive stat := Disk (fields : dict str Z) | Partition (fields : dict str Z).

(** benchmark.py:44-56; a line is bytes, and [int] of bytes reads the same numerals
    as [int] of text for ASCII *)
Definition parseDiskStatLine (L : str) : res (str * stat) :=
  let parts := bytes_split L in
  match nth_error parts 2 with
  | None => Err IndexError
  | Some device =>
    rbind (utf8_decode device) (fun name =>
    rbind (mapM py_int (firstn 11 (skipn 3 parts))) (fun ns =>
    if length parts =? 7 then rbind (struct_init partitionstat_names [] ns []) (fun f => Ok (name, Partition f))
    else rbind (struct_init diskstat_names [] ns []) (fun f => Ok (name, Disk f))))
  end.

(** benchmark.py:60-66, 70-76: the lines of /proc/diskstats *)
Definition captureStats (lines : list str) : res (dict str stat) :=
  rbind (mapM parseDiskStatLine lines) (fun l => Ok (fold_left (fun d p => dset d (fst p) (snd p)) l [])).

(** ** Mounts *)

(** comparison of the tuples (len, device) *)
Definition pair_ltb (a b : nat * str) : bool := (fst a <? fst b) || ((fst a =? fst b) && str_ltb (snd a) (snd b)).

(** the last element after list.sort: the greatest *)
Fixpoint greatest (l : list (nat * str)) : option (nat * str) :=
  match l with
  | [] => None
  | x :: t => match greatest t with None => Some x | Some y => Some (if pair_ltb y x then x else y) end
  end.

(** benchmark.py:417-433, with the lines of the file and the working directory *)
Fixpoint possibilities (cwd : str) (lines : list str) : res (list (nat * str)) :=
  match lines with
  | [] => Ok []
  | L :: t =>
    match split_ws L with
    | dev :: mount :: _ => rbind (possibilities cwd t) (fun r => Ok (if prefixb mount cwd then (length mount, dev) :: r else r))
    | _ => Err IndexError
    end
  end.

Definition discoverCurrentWorkingDevice (cwd : str) (lines : list str) : res str :=
  rbind (possibilities cwd lines) (fun l => Ok (match greatest l with Some p => snd p | None => lit "<unknown>" end)).

(** ** Child processes *)

(** why a process ended: error.ProcessDone, error.ProcessTerminated, or another
    exception *)
Inductive reason := ProcessDone (status : Z) | ProcessTerminated (exitCode : option Z) (signal : option Z) (status : Z) | OtherReason (e : exn).

(** what the reactor tells the protocol *)
Inductive pevent := Connected | Data (fd : N) (b : str) | Closed (fd : N) | Ended (r : reason) | Tick.

Definition output := list (N * option str).
(** what whenFinished is fired with *)
Inductive outcome := Success (status : Z) (o : output) | TimedOut | Died (exitCode signal : option Z) (status : Z) (o : output) | Failed (e : exn).

Record proc := Proc {
  mix : mixin;               (* the TimeoutMixin *)
  waiting : bool;            (* whenFinished is not None *)
  out : option output;       (* self.output *)
  timedOut : bool;
  results : list outcome;    (* what whenFinished was fired with *)
  signals : list str         (* transport.signalProcess *)
}.

(** benchmark.py:117, 122-125 *)
Definition new_proc : proc := Proc (new_mixin None) true (Some []) false [] [].

Definition delay_ok (d : Z) : bool := (0 <=? d)%Z.
Definition PERIOD : Z := 900%Z.

Definition on_mix (p : proc) (x : mixin * answer) : proc * answer :=
  (Proc (fst x) (waiting p) (out p) (timedOut p) (results p) (signals p), snd x).

(** benchmark.py:137-144: resetTimeout, then append *)
Definition receive (now : Z) (item : N * option str) (p : proc) : proc * answer :=
  match on_mix p (resetTimeout now (mix p)) with
  | (p', Done) =>
    match out p' with
    | Some o => (Proc (mix p') (waiting p') (Some (o ++ [item])) (timedOut p') (results p') (signals p'), Done)
    | None => (p', Raised AttributeError)
    end
  | x => x
  end.

(** the output list when whenFinished is fired; it is None only after the end *)
Definition the_output (o : option output) : output := match o with Some l => l | None => [] end.

(** benchmark.py:155-165: what d is fired with *)
Definition judge (r : reason) (timedOut : bool) (o : output) : outcome :=
  match r with
  | ProcessDone status => Success status o
  | ProcessTerminated c g s => if timedOut then TimedOut else Died c g s o
  | OtherReason e => if timedOut then TimedOut else Failed e
  end.

(** benchmark.py:147-166; the callbacks of d do not call the protocol *)
Definition processEnded (now : Z) (r : reason) (p : proc) : proc * answer :=
  if waiting p then
    on_mix (Proc (mix p) false None (timedOut p) (results p ++ [judge r (timedOut p) (the_output (out p))]) (signals p)) (setTimeout delay_ok now None (mix p))
  else (Proc (mix p) false None (timedOut p) (results p) (signals p), Raised AttributeError).

(** the reactor's clock has moved: timeouts which are due happen (Delayed.look_all),
    each calling timeoutConnection, benchmark.py:132-134 *)
Definition tick_proc (now : Z) (p : proc) : proc :=
  let m := look_all now (mix p) in
  let n := m_fired m - m_fired (mix p) in
  Proc m (waiting p) (out p) (timedOut p || (0 <? n)) (results p) (signals p ++ repeat (lit "KILL") n).

Definition happens (now : Z) (e : pevent) (p : proc) : proc * answer :=
  match e with
  | Connected => on_mix p (setTimeout delay_ok now (Some PERIOD) (mix p))   (* 128-129 *)
  | Data fd b => receive now (fd, Some b) p
  | Closed fd => receive now (fd, None) p
  | Ended r => processEnded now r p
  | Tick => (tick_proc now p, Done)
  end.

Fixpoint history (l : list (Z * pevent)) (p : proc) : proc :=
  match l with [] => p | (now, e) :: t => history t (fst (happens now e p)) end.

(** *** BenchmarkProcess *)

(** benchmark.py:233-234, 269-275, for one byte: iterating over bytes gives numbers,
    which are never equal to the strings START and STOP *)
Definition int_eq_str (n : N) (s : str) : bool := false.

Inductive reaction := StartTiming | StopTiming | Quit.
Definition back_byte (b : N) : reaction :=
  if int_eq_str b [0%N] then StartTiming else if int_eq_str b [1%N] then StopTiming else Quit.

(** benchmark.py:266-277; the changes themselves (disk statistics, sizes) are not
    modelled *)
Definition bench_data (now : Z) (fd : N) (b : str) (p : proc) : proc * answer * list reaction :=
  if (fd =? 3)%N then
    match on_mix p (resetTimeout now (mix p)) with
    | (p', Done) =>
      let rs := map back_byte b in
      (Proc (mix p') (waiting p') (out p') (timedOut p') (results p')
        (signals p' ++ flat_map (fun r => match r with Quit => [lit "QUIT"] | _ => [] end) rs), Done, rs)
    | (p', a) => (p', a, [])
    end
  else (receive now (fd, Some b) p, []).

(** ** Specifications *)

(** lines as Linux writes them: words separated by blanks *)
Fixpoint spaced (l : list (str * str)) : str :=
  match l with [] => [] | (gap, w) :: t => gap ++ w ++ spaced t end.
Definition gap_ok (sp : N -> bool) (g : str) : Prop := g <> [] /\ Forall (fun c => sp c = true) g.
Definition word (sp : N -> bool) (w : str) : Prop := w <> [] /\ no_space sp w.

(** a mount point holds a directory: it is it, or is above it *)
Definition contains (mount cwd : str) : Prop := mount = lit "/" /\ prefixb mount cwd = true \/ cwd = mount \/ exists rest, cwd = mount ++ lit "/" ++ rest.

(** the deadline and the outcome which a history calls for *)
Definition renew (now : Z) (dl : option Z) : option Z := match dl with Some _ => Some (now + 900)%Z | None => None end.
Fixpoint wanted_outcome (l : list (Z * pevent)) (o : output) (dl : option Z) (timed : bool) : option outcome :=
  match l with
  | [] => None
  | (now, Connected) :: t => wanted_outcome t o (Some (now + 900)%Z) timed
  | (now, Data fd b) :: t => wanted_outcome t (o ++ [(fd, Some b)]) (renew now dl) timed
  | (now, Closed fd) :: t => wanted_outcome t (o ++ [(fd, None)]) (renew now dl) timed
  | (now, Tick) :: t => match dl with Some d => if (d <=? now)%Z then wanted_outcome t o None true else wanted_outcome t o dl timed | None => wanted_outcome t o dl timed end
  | (now, Ended r) :: t => Some (match r with
      | ProcessDone status => Success status o
      | ProcessTerminated c g s => if timed then TimedOut else Died c g s o
      | OtherReason e => if timed then TimedOut else Failed e
      end)
  end.

(** ** Proofs *)

Lemma rev_nil_inv {A} (w : list A) : w <> [] -> rev w <> [].
Proof. intros H E. apply H. rewrite <- (rev_involutive w), E. reflexivity. Qed.

Lemma split_sep1 sp w c rest : w <> [] -> no_space sp w -> sp c = true -> split_ws_aux sp [] (w ++ c :: rest) = w :: split_ws_aux sp [] (c :: rest).
Proof.
  intros Hw Hn Hc. rewrite split_ws_aux_word, app_nil_r by exact Hn. cbn [split_ws_aux]. rewrite Hc.
  pose proof (rev_nil_inv w Hw) as Hr. destruct (rev w) eqn:E; [congruence|]. rewrite <- E, rev_involutive. reflexivity.
Qed.

Lemma split_sep0 sp w : w <> [] -> no_space sp w -> split_ws_aux sp [] w = [w].
Proof.
  intros Hw Hn. rewrite <- (app_nil_r w) at 1. rewrite split_ws_aux_word, app_nil_r by exact Hn. cbn [split_ws_aux].
  pose proof (rev_nil_inv w Hw) as Hr. destruct (rev w) eqn:E; [congruence|]. rewrite <- E, rev_involutive. reflexivity.
Qed.

Lemma split_words sp l : Forall (fun p => gap_ok sp (fst p) /\ word sp (snd p)) l -> forall tail, Forall (fun c => sp c = true) tail ->
  split_ws_aux sp [] (spaced l ++ tail) = map snd l.
Proof.
  intros H tail Ht. assert (T : split_ws_aux sp [] tail = []) by (rewrite <- (app_nil_r tail), split_ws_aux_sep by exact Ht; reflexivity).
  induction H as [|[g w] l ((_ & Hg) & Hw & Hw2) Hl IH]; [exact T|].
  cbn [spaced map snd fst] in *. rewrite <- !app_assoc, split_ws_aux_sep by exact Hg.
  destruct (spaced l ++ tail) as [|c rest] eqn:E.
  - rewrite app_nil_r, split_sep0 by assumption. f_equal. exact IH.
  - assert (Hc : sp c = true).
    { destruct l as [|[g2 w2] l].
      - cbn in E. subst tail. inversion Ht; auto.
      - inversion Hl as [|? ? ((Hg0 & Hg2) & _) _]; subst. cbn [fst] in *. destruct g2 as [|c2 g2]; [congruence|]. inversion Hg2; subst. injection E as <- _. assumption. }
    rewrite split_sep1 by assumption. f_equal. exact IH.
Qed.

Lemma zdec_word z : word is_space_b (zdec z).
Proof.
  destruct (zdec_shape z) as (c & t & E & Hc & Ht). split; [rewrite E; discriminate|]. rewrite E. constructor.
  - destruct Hc as [->|Hc]; [reflexivity|]. now apply digit_not_space.
  - apply Forall_forall. intros x Hx. apply (digit_not_space x). eapply all_digits_In; eauto.
Qed.

Lemma mapM_zdec ns : mapM py_int (map zdec ns) = Ok ns.
Proof. induction ns as [|n ns IH]; [reflexivity|]. cbn. rewrite py_int_zdec. cbn. now rewrite IH. Qed.

(** major, minor, the name and the counters *)
Definition stat_line (gaps : list str) (major minor dev : str) (ns : list Z) (extra : list str) : list (str * str) :=
  combine gaps (major :: minor :: dev :: map zdec ns ++ extra).

Lemma combine_snd {A B} (a : list A) (b : list B) : List.length a = List.length b -> map snd (combine a b) = b.
Proof. revert b. induction a as [|x a IH]; intros [|y b] H; try discriminate H; [reflexivity|]. cbn. f_equal. apply IH. now injection H. Qed.

Lemma combine_good sp gaps ws : List.length gaps = List.length ws -> Forall (gap_ok sp) gaps -> Forall (word sp) ws -> Forall (fun p => gap_ok sp (fst p) /\ word sp (snd p)) (combine gaps ws).
Proof.
  revert ws. induction gaps as [|g gaps IH]; intros [|w ws] H Hg Hw; try discriminate H; [constructor|]. inversion Hg; inversion Hw; subst. constructor; [auto|]. apply IH; auto.
Qed.

Lemma split_words_lead sp g w l tail : Forall (fun c => sp c = true) g -> word sp w -> Forall (fun p => gap_ok sp (fst p) /\ word sp (snd p)) l -> Forall (fun c => sp c = true) tail ->
  split_ws_aux sp [] (spaced ((g, w) :: l) ++ tail) = w :: map snd l.
Proof.
  intros Hg (Hw & Hn) Hl Ht. pose proof (split_words sp l Hl tail Ht) as IH. cbn [spaced]. rewrite <- !app_assoc, split_ws_aux_sep by exact Hg.
  destruct (spaced l ++ tail) as [|c rest] eqn:E.
  - rewrite app_nil_r, split_sep0 by assumption. f_equal. exact IH.
  - assert (Hc : sp c = true).
    { destruct l as [|[g2 w2] l].
      - cbn in E. subst tail. inversion Ht; auto.
      - inversion Hl as [|? ? ((Hg0 & Hg2) & _) _]; subst. cbn [fst] in *. destruct g2 as [|c2 g2]; [congruence|]. inversion Hg2; subst. injection E as <- _. assumption. }
    rewrite split_sep1 by assumption. f_equal. exact IH.
Qed.

(** gaps: only the first may be empty *)
Definition gaps_ok (sp : N -> bool) (gaps : list str) : Prop := Forall (fun c => sp c = true) (hd [] gaps) /\ Forall (gap_ok sp) (tl gaps).

Lemma line_words gaps major minor dev ns extra tail : List.length gaps = 3 + List.length ns + List.length extra ->
  gaps_ok is_space_b gaps -> Forall (word is_space_b) (major :: minor :: dev :: extra) -> Forall (fun c => is_space_b c = true) tail ->
  bytes_split (spaced (stat_line gaps major minor dev ns extra) ++ tail) = major :: minor :: dev :: map zdec ns ++ extra.
Proof.
  intros Hl (Hg1 & Hg) Hw Ht. inversion Hw as [|? ? W1 Hw1]; subst. inversion Hw1 as [|? ? W2 Hw2]; subst. inversion Hw2 as [|? ? W3 Hw3]; subst.
  destruct gaps as [|g gaps]; [discriminate Hl|]. cbn [hd tl] in *.
  assert (El : List.length gaps = List.length (minor :: dev :: map zdec ns ++ extra)) by (cbn in *; rewrite app_length, map_length; lia).
  unfold bytes_split, stat_line. cbn [combine]. rewrite split_words_lead; [f_equal; now apply combine_snd|exact Hg1|exact W1| |exact Ht]. apply combine_good; [exact El|exact Hg|].
  repeat (constructor; [assumption|]). apply Forall_app. split; [|exact Hw3]. apply Forall_forall. intros x Hx. apply in_map_iff in Hx as (z & <- & _). apply zdec_word.
Qed.

Lemma parse_disk gaps major minor dev name ns extra tail : List.length gaps = 3 + List.length ns + List.length extra ->
  gaps_ok is_space_b gaps -> Forall (word is_space_b) (major :: minor :: dev :: extra) -> Forall (fun c => is_space_b c = true) tail ->
  utf8_encode name = Ok dev -> List.length ns = 11 ->
  parseDiskStatLine (spaced (stat_line gaps major minor dev ns extra) ++ tail) = Ok (name, Disk (combine diskstat_names ns)).
Proof.
  intros Hl Hg Hw Ht He Hn. unfold parseDiskStatLine. rewrite line_words by assumption. cbn [nth_error]. rewrite (utf8_decode_encode _ _ He). cbn [rbind].
  cbn [skipn]. rewrite firstn_app, map_length, Hn, Nat.sub_diag, firstn_O, app_nil_r. rewrite firstn_all2 by (rewrite map_length; lia). rewrite mapM_zdec. cbn [rbind].
  cbn [List.length]. rewrite app_length, map_length, Hn. cbn [Nat.eqb Nat.add].
  do 11 (destruct ns as [|? ns]; [discriminate Hn|]). destruct ns; [|discriminate Hn]. reflexivity.
Qed.

Lemma parse_partition gaps major minor dev name ns tail : List.length gaps = 3 + List.length ns ->
  gaps_ok is_space_b gaps -> Forall (word is_space_b) [major; minor; dev] -> Forall (fun c => is_space_b c = true) tail ->
  utf8_encode name = Ok dev -> List.length ns = 4 ->
  parseDiskStatLine (spaced (stat_line gaps major minor dev ns []) ++ tail) = Ok (name, Partition (combine partitionstat_names ns)).
Proof.
  intros Hl Hg Hw Ht He Hn. unfold parseDiskStatLine. rewrite line_words; try assumption; [|cbn; lia]. cbn [nth_error]. rewrite (utf8_decode_encode _ _ He). cbn [rbind].
  rewrite app_nil_r. cbn [skipn]. rewrite firstn_all2 by (rewrite map_length; lia). rewrite mapM_zdec. cbn [rbind]. cbn [List.length]. rewrite map_length, Hn. cbn [Nat.eqb Nat.add].
  do 4 (destruct ns as [|? ns]; [discriminate Hn|]). destruct ns; [|discriminate Hn]. reflexivity.
Qed.

(** any other number of counters is an error *)
Lemma parse_other gaps major minor dev ns tail : List.length gaps = 3 + List.length ns ->
  gaps_ok is_space_b gaps -> Forall (word is_space_b) [major; minor; dev] -> Forall (fun c => is_space_b c = true) tail ->
  (exists name, utf8_encode name = Ok dev) -> List.length ns <> 4 -> List.length ns < 11 ->
  parseDiskStatLine (spaced (stat_line gaps major minor dev ns []) ++ tail) = Err TypeError.
Proof.
  intros Hl Hg Hw Ht (name & He) Hn Hm. unfold parseDiskStatLine. rewrite line_words; try assumption; [|cbn; lia]. cbn [nth_error]. rewrite (utf8_decode_encode _ _ He). cbn [rbind].
  rewrite app_nil_r. cbn [skipn]. rewrite firstn_all2 by (rewrite map_length; lia). rewrite mapM_zdec. cbn [rbind]. cbn [List.length]. rewrite map_length.
  destruct (Nat.eqb_spec (3 + List.length ns) 7) as [E|E]; [lia|]. change (S (S (S (List.length ns)))) with (3 + List.length ns). destruct (3 + List.length ns =? 7) eqn:E2; [apply Nat.eqb_eq in E2; congruence|].
  do 11 (destruct ns as [|? ns]; [reflexivity|]). cbn in Hm. lia.
Qed.

(** *** captureStats *)
Lemma capture_get lines d : captureStats lines = Ok d -> exists l, mapM parseDiskStatLine lines = Ok l /\
  forall k, dget d k = fold_left (fun a p => if eqb (fst p) k then Some (snd p) else a) l None.
Proof.
  unfold captureStats. destruct (mapM parseDiskStatLine lines) as [l|]; [|discriminate]. cbn. intros [= <-]. exists l. split; [reflexivity|]. intros k.
  assert (H : forall d a, dget d k = a -> dget (fold_left (fun d p => dset d (fst p) (snd p)) l d) k = fold_left (fun a (p : str * stat) => if eqb (fst p) k then Some (snd p) else a) l a).
  { induction l as [|[n s] l IH]; intros d a E; [exact E|]. cbn [fold_left fst snd]. apply IH. destruct (eqb n k) eqn:En; [apply eqb_eq in En as ->; apply dget_dset_eq|]. rewrite dget_dset_neq; [exact E|]. apply eqb_neq in En. auto. }
  now apply H.
Qed.

(** *** BasicProcess *)

(** the kills a history calls for; after the end nothing clears the deadline *)
Fixpoint kills (l : list (Z * pevent)) (dl : option Z) (ended : bool) : nat :=
  match l with
  | [] => 0
  | (now, Connected) :: t => kills t (Some (now + 900)%Z) ended
  | (now, Data _ _) :: t | (now, Closed _) :: t => kills t (renew now dl) ended
  | (now, Ended _) :: t => kills t (if ended then dl else None) true
  | (now, Tick) :: t => match dl with Some d => if (d <=? now)%Z then S (kills t None ended) else kills t dl ended | None => kills t dl ended end
  end.

(** what the protocol raises at each event *)
Fixpoint complaints (l : list (Z * pevent)) (p : proc) : list answer :=
  match l with [] => [] | (now, e) :: t => snd (happens now e p) :: complaints t (fst (happens now e p)) end.
Fixpoint wanted_complaints (l : list (Z * pevent)) (ended : bool) : list answer :=
  match l with
  | [] => []
  | (_, Connected) :: t | (_, Tick) :: t => Done :: wanted_complaints t ended
  | (_, Data _ _) :: t | (_, Closed _) :: t => (if ended then Raised AttributeError else Done) :: wanted_complaints t ended
  | (_, Ended _) :: t => (if ended then Raised AttributeError else Done) :: wanted_complaints t true
  end.

Definition pinv (p : proc) (dl : option Z) (ended : bool) : Prop :=
  (exists t n, inv (mix p) (Wanted t dl n) /\ (dl <> None -> t = Some PERIOD)) /\ waiting p = negb ended /\ (ended = true <-> out p = None).

Lemma reset_done now m w : inv m w -> snd (resetTimeout now m) = Done.
Proof.
  destruct m as [t c calls f], w as [t' d f']. unfold inv, resetTimeout. cbn [m_timeOut m_call m_calls m_fired w_timeOut w_deadline w_fired]. intros (-> & -> & G & H).
  destruct c as [i|]; [|reflexivity]. destruct t' as [p|]; [|reflexivity]. destruct d as [d|]; [|contradiction].
  destruct H as (l & h & r & -> & <- & E & Hl & Hr). destruct (good_mid _ _ _ G) as (G1 & G2 & G3). rewrite tell_at.
  destruct (happen_at h (EReset now p) d G2 E) as (A & B & C). cbn [snd]. rewrite C. reflexivity.
Qed.

Lemma set_done now p m w : inv m w -> (match p with Some q => delay_ok q = true | None => True end) -> snd (setTimeout delay_ok now p m) = Done.
Proof.
  destruct m as [t c calls f], w as [t' d f']. unfold inv, setTimeout. cbn [m_timeOut m_call m_calls m_fired w_timeOut w_deadline w_fired]. intros (-> & -> & G & H) Hp.
  destruct c as [i|].
  - destruct d as [d|]; [|contradiction]. destruct H as (l & h & r & -> & <- & E & Hl & Hr). destruct (good_mid _ _ _ G) as (G1 & G2 & G3). destruct p as [p|]; rewrite tell_at; cbn [fst snd].
    + destruct (happen_at h (EReset now p) d G2 E) as (A & B & C). rewrite C. reflexivity.
    + destruct (happen_at h ECancel d G2 E) as (A & B & C). rewrite C. reflexivity.
  - destruct p as [p|]; [|reflexivity]. rewrite Hp. reflexivity.
Qed.

Lemma look_all_inv now m w : inv m w -> inv (look_all now m) (wstep delay_ok now MTick w).
Proof.
  intros H. apply looks_inv; [exact H|]. intros i Hi. destruct H as (_ & _ & _ & H). rewrite Hi in H. destruct (w_deadline w); [|contradiction].
  destruct H as (l & h & r & E & El & _). rewrite E, app_length. cbn. apply in_seq. lia.
Qed.

Definition is_due (now : Z) (dl : option Z) : bool := match dl with Some d => (d <=? now)%Z | None => false end.
Definition next_dl (now : Z) (e : pevent) (dl : option Z) (ended : bool) : option Z :=
  match e with
  | Connected => Some (now + PERIOD)%Z
  | Data _ _ | Closed _ => renew now dl
  | Ended _ => if ended then dl else None
  | Tick => if is_due now dl then None else dl
  end.
Definition ends (e : pevent) : bool := match e with Ended _ => true | _ => false end.
Definition news (e : pevent) : output := match e with Data fd b => [(fd, Some b)] | Closed fd => [(fd, None)] | _ => [] end.

Lemma inv_reset now m t dl n : inv m (Wanted t dl n) -> (dl <> None -> t = Some PERIOD) -> inv (fst (resetTimeout now m)) (Wanted t (renew now dl) n).
Proof.
  intros H Ht. pose proof (reset_inv delay_ok now _ _ H) as H'. cbn [wstep w_timeOut w_deadline w_fired] in H'. destruct dl as [d|]; [|exact H']. rewrite Ht in * by discriminate. exact H'.
Qed.

Lemma step_ok now e p dl ended : pinv p dl ended ->
  pinv (fst (happens now e p)) (next_dl now e dl ended) (ended || ends e) /\
  snd (happens now e p) = (match e with Connected | Tick => Done | _ => if ended then Raised AttributeError else Done end) /\
  (ended = false -> ends e = false -> the_output (out (fst (happens now e p))) = the_output (out p) ++ news e) /\
  timedOut (fst (happens now e p)) = timedOut p || (match e with Tick => is_due now dl | _ => false end) /\
  results (fst (happens now e p)) = results p ++ (match e with Ended r => if ended then [] else [judge r (timedOut p) (the_output (out p))] | _ => [] end) /\
  signals (fst (happens now e p)) = signals p ++ (match e with Tick => if is_due now dl then [lit "KILL"] else [] | _ => [] end).
Proof.
  intros ((t & n & Hm & Ht) & Hw & Ho). destruct e as [|fd b|fd|r|]; cbn [happens ends news next_dl].
  - pose proof (set_inv delay_ok now (Some PERIOD) _ _ Hm) as H1. pose proof (set_done now (Some PERIOD) _ _ Hm eq_refl) as H2.
    destruct (setTimeout delay_ok now (Some PERIOD) (mix p)) as [m' a]. cbn [fst snd] in H1, H2. subst a. cbn [on_mix fst snd mix waiting out timedOut results signals].
    rewrite !orb_false_r, !app_nil_r. repeat split; try tauto; try reflexivity.
    exists (Some PERIOD), n. split; [|auto]. destruct dl; exact H1.
  - pose proof (inv_reset now _ _ _ _ Hm Ht) as H1. pose proof (reset_done now _ _ Hm) as H2. unfold receive.
    destruct (resetTimeout now (mix p)) as [m' a]. cbn [fst snd] in H1, H2. subst a. cbn [on_mix fst snd mix waiting out timedOut results signals].
    assert (Hn : renew now dl <> None -> t = Some PERIOD) by (destruct dl; [intros _; apply Ht; discriminate|intros Hx; now destruct Hx]).
    destruct (out p) as [o|] eqn:Eo; cbn [fst snd mix waiting out timedOut results signals]; rewrite !orb_false_r, !app_nil_r.
    + destruct ended; [destruct Ho as [Ho _]; discriminate (Ho eq_refl)|]. repeat split; try tauto; try reflexivity; try discriminate. now exists t, n.
    + destruct ended; [|destruct Ho as [_ Ho]; discriminate (Ho eq_refl)]. repeat split; try tauto; try reflexivity; try discriminate. now exists t, n.
  - pose proof (inv_reset now _ _ _ _ Hm Ht) as H1. pose proof (reset_done now _ _ Hm) as H2. unfold receive.
    destruct (resetTimeout now (mix p)) as [m' a]. cbn [fst snd] in H1, H2. subst a. cbn [on_mix fst snd mix waiting out timedOut results signals].
    assert (Hn : renew now dl <> None -> t = Some PERIOD) by (destruct dl; [intros _; apply Ht; discriminate|intros Hx; now destruct Hx]).
    destruct (out p) as [o|] eqn:Eo; cbn [fst snd mix waiting out timedOut results signals]; rewrite !orb_false_r, !app_nil_r.
    + destruct ended; [destruct Ho as [Ho _]; discriminate (Ho eq_refl)|]. repeat split; try tauto; try reflexivity; try discriminate. now exists t, n.
    + destruct ended; [|destruct Ho as [_ Ho]; discriminate (Ho eq_refl)]. repeat split; try tauto; try reflexivity; try discriminate. now exists t, n.
  - unfold processEnded. rewrite Hw. destruct ended; cbn [negb orb].
    + cbn [fst snd mix waiting out timedOut results signals]. rewrite orb_false_r, !app_nil_r. repeat split; try tauto; try reflexivity; try discriminate. now exists t, n.
    + pose proof (set_inv delay_ok now None _ _ Hm) as H1. pose proof (set_done now None _ _ Hm I) as H2.
      destruct (setTimeout delay_ok now None (mix p)) as [m' a]. cbn [fst snd] in H1, H2. subst a. cbn [on_mix fst snd mix waiting out timedOut results signals].
      rewrite !orb_false_r, !app_nil_r. repeat split; try tauto; try reflexivity; try discriminate.
      exists None, n. split; [exact H1|intros Hx; now destruct Hx].
  - pose proof (look_all_inv now _ _ Hm) as H1. unfold tick_proc. cbn [fst snd mix waiting out timedOut results signals].
    assert (F1 : m_fired (look_all now (mix p)) = (if is_due now dl then S n else n)).
    { destruct H1 as (_ & F & _). rewrite F. cbn [wstep w_deadline]. unfold is_due. destruct dl as [d|]; [destruct (d <=? now)%Z|]; reflexivity. }
    assert (F0 : m_fired (mix p) = n) by (destruct Hm as (_ & F & _); exact F).
    rewrite F1, F0, !orb_false_r, !app_nil_r.
    assert (Hi : exists n', inv (look_all now (mix p)) (Wanted t (if is_due now dl then None else dl) n')).
    { cbn [wstep w_deadline w_timeOut w_fired] in H1. unfold is_due. destruct dl as [d|]; [destruct (d <=? now)%Z|]; eauto. }
    destruct Hi as (n' & Hi). destruct (is_due now dl).
    + replace (S n - n) with 1 by lia. repeat split; try tauto; try reflexivity. exists t, n'. split; [exact Hi|intros Hx; now destruct Hx].
    + rewrite Nat.sub_diag. cbn [repeat Nat.ltb Nat.leb]. rewrite !orb_false_r, !app_nil_r. repeat split; try tauto; try reflexivity. exists t, n'. split; [exact Hi|exact Ht].
Qed.

Lemma new_ok : pinv new_proc None false.
Proof. split; [|split; [reflexivity|split; discriminate]]. exists None, 0. split; [repeat split; constructor|intros H; now destruct H]. Qed.

Lemma history_ended l : forall p dl, pinv p dl true -> results (history l p) = results p.
Proof.
  induction l as [|[now e] l IH]; intros p dl H; [reflexivity|]. cbn [history]. destruct (step_ok now e p dl true H) as (H1 & _ & _ & _ & H5 & _).
  cbn [orb] in H1. rewrite (IH _ _ H1), H5. destruct e; now rewrite app_nil_r.
Qed.

Lemma history_outcome l : forall p dl, pinv p dl false ->
  results (history l p) = results p ++ match wanted_outcome l (the_output (out p)) dl (timedOut p) with Some o => [o] | None => [] end.
Proof.
  induction l as [|[now e] l IH]; intros p dl H; [cbn; now rewrite app_nil_r|]. cbn [history].
  destruct (step_ok now e p dl false H) as (H1 & _ & H3 & H4 & H5 & _). cbn [orb] in H1. specialize (H3 eq_refl).
  destruct e as [|fd b|fd|r|]; cbn [ends] in *; cbn [wanted_outcome next_dl news] in *.
  1-3: rewrite (IH _ _ H1), H3, H4, H5 by reflexivity; now rewrite orb_false_r, !app_nil_r.
  - rewrite (history_ended _ _ _ H1), H5. reflexivity.
  - rewrite (IH _ _ H1), H3, H4, H5 by reflexivity. rewrite !app_nil_r. unfold is_due. destruct dl as [d|]; [|now rewrite orb_false_r].
    destruct (d <=? now)%Z; [now rewrite orb_true_r|now rewrite orb_false_r].
Qed.

Lemma history_kills l : forall p dl ended, pinv p dl ended -> signals (history l p) = signals p ++ repeat (lit "KILL") (kills l dl ended).
Proof.
  induction l as [|[now e] l IH]; intros p dl ended H; [cbn; now rewrite app_nil_r|]. cbn [history].
  destruct (step_ok now e p dl ended H) as (H1 & _ & _ & _ & _ & H6). rewrite (IH _ _ _ H1), H6. clear. destruct e as [|fd b|fd|r|]; cbn [ends next_dl kills] in *; rewrite ?orb_false_r, ?orb_true_r, ?app_nil_r; try reflexivity.
  unfold is_due. destruct dl as [d|]; [|now rewrite app_nil_r]. destruct (d <=? now)%Z; [now rewrite <- app_assoc|now rewrite app_nil_r].
Qed.

Lemma history_complaints l : forall p dl ended, pinv p dl ended -> complaints l p = wanted_complaints l ended.
Proof.
  induction l as [|[now e] l IH]; intros p dl ended H; [reflexivity|]. cbn [complaints].
  destruct (step_ok now e p dl ended H) as (H1 & H2 & _). rewrite (IH _ _ _ H1), H2. destruct e as [|fd b|fd|r|]; cbn [ends wanted_complaints]; rewrite ?orb_false_r, ?orb_true_r; reflexivity.
Qed.

Lemma kills_none l ended : Forall (fun x => snd x <> Connected) l -> kills l None ended = 0.
Proof.
  revert ended. induction l as [|[now e] l IH]; intros ended H; [reflexivity|]. inversion H; subst. destruct e; cbn [kills renew]; try (now apply IH); [cbn in *; congruence|].
  destruct ended; now apply IH.
Qed.

Lemma pinv_history l : forall p dl ended, pinv p dl ended -> exists dl', pinv (history l p) dl' (ended || existsb (fun x => ends (snd x)) l).
Proof.
  induction l as [|[now e] l IH]; intros p dl ended H; [exists dl; cbn; now rewrite orb_false_r|]. cbn [history existsb snd]. destruct (step_ok now e p dl ended H) as (H1 & _).
  destruct (IH _ _ _ H1) as (dl' & H2). exists dl'. now rewrite orb_assoc.
Qed.

Lemma history_app l l' p : history (l ++ l') p = history l' (history l p).
Proof. revert p. induction l as [|[now e] l IH]; intros p; [reflexivity|]. cbn. apply IH. Qed.

Lemma no_late_kill l now r l' : Forall (fun x => ends (snd x) = false) l -> Forall (fun x => snd x <> Connected) l' ->
  signals (history (l ++ (now, Ended r) :: l') new_proc) = signals (history l new_proc).
Proof.
  intros Hl Hl'. rewrite history_app. destruct (pinv_history l _ _ _ new_ok) as (dl & H). rewrite (history_kills _ _ _ _ H).
  assert (E : existsb (fun x => ends (snd x)) l = false) by (clear - Hl; induction Hl as [|x l H _ IH]; [reflexivity|]; cbn; rewrite H, IH; reflexivity).
  rewrite E. cbn [orb kills]. rewrite kills_none by exact Hl'. cbn. now rewrite app_nil_r.
Qed.

(** *** Mounts *)

(** a line of /proc/self/mounts: the device, the mount point, more *)
Definition mount_line (L : str) (e : str * str) : Prop := exists g1 g2 more tail,
  L = spaced ((g1, fst e) :: (g2, snd e) :: more) ++ tail /\ Forall (fun c => is_space c = true) g1 /\ gap_ok is_space g2 /\
  word is_space (fst e) /\ word is_space (snd e) /\ Forall (fun p => gap_ok is_space (fst p) /\ word is_space (snd p)) more /\ Forall (fun c => is_space c = true) tail.

(** the deepest mount point which holds the directory *)
Definition on_device (tbl : list (str * str)) (cwd dev : str) : Prop :=
  exists m, In (dev, m) tbl /\ contains m cwd /\ forall d' m', In (d', m') tbl -> contains m' cwd -> length m' <= length m.

Lemma mount_words L e : mount_line L e -> exists r, split_ws L = fst e :: snd e :: r.
Proof.
  intros (g1 & g2 & more & tail & -> & H1 & H2 & H3 & H4 & H5 & H6). exists (map snd more). unfold split_ws.
  rewrite split_words_lead; [reflexivity|exact H1|exact H3| |exact H6]. constructor; [split; assumption|exact H5].
Qed.

Definition textual (cwd : str) (tbl : list (str * str)) : list (nat * str) :=
  map (fun e => (length (snd e), fst e)) (filter (fun e => prefixb (snd e) cwd) tbl).

Lemma poss cwd lines tbl : Forall2 mount_line lines tbl -> possibilities cwd lines = Ok (textual cwd tbl).
Proof.
  induction 1 as [|L e lines tbl H _ IH]; [reflexivity|]. destruct (mount_words L e H) as (r & E). cbn [possibilities]. rewrite E, IH. cbn [rbind]. unfold textual. cbn [filter].
  destruct (prefixb (snd e) cwd); reflexivity.
Qed.

Lemma pair_total a b : pair_ltb a b = false -> pair_ltb b a = false -> a = b.
Proof.
  destruct a as [n a], b as [m b]. unfold pair_ltb. cbn [fst snd]. intros H1 H2. apply orb_false_iff in H1 as [H1 H1'], H2 as [H2 H2'].
  apply Nat.ltb_ge in H1, H2. assert (n = m) by lia. subst m. rewrite Nat.eqb_refl in H1', H2'. cbn in *. f_equal.
  destruct (str_trichotomy a b) as [(E & _)|[(_ & E & _)|(_ & _ & E)]]; congruence.
Qed.

Lemma pair_trans a b c : pair_ltb a b = true -> pair_ltb b c = true -> pair_ltb a c = true.
Proof.
  destruct a as [n a], b as [m b], c as [k c]. unfold pair_ltb. cbn [fst snd]. rewrite !orb_true_iff, !andb_true_iff, !Nat.ltb_lt, !Nat.eqb_eq.
  intros [H1|[-> H1]] [H2|[-> H2]]; [left; lia|left; lia|left; lia|right; split; [reflexivity|]]. eapply str_ltb_trans; eauto.
Qed.

Lemma pair_irrefl a : pair_ltb a a = false.
Proof. unfold pair_ltb. rewrite Nat.ltb_irrefl, Nat.eqb_refl, str_ltb_irrefl. reflexivity. Qed.

Lemma pair_le_trans a b c : pair_ltb b a = false -> pair_ltb c b = false -> pair_ltb c a = false.
Proof.
  intros H1 H2. destruct (pair_ltb c a) eqn:E; [|reflexivity]. destruct (pair_ltb a b) eqn:E2.
  - rewrite (pair_trans _ _ _ E E2) in H2. discriminate.
  - rewrite (pair_total _ _ E2 H1) in E. congruence.
Qed.

Lemma greatest_ok l : match greatest l with None => l = [] | Some p => In p l /\ forall q, In q l -> pair_ltb p q = false end.
Proof.
  induction l as [|x l IH]; [reflexivity|]. cbn [greatest]. destruct (greatest l) as [y|].
  - destruct IH as [Hy Hm]. destruct (pair_ltb y x) eqn:E.
    + split; [now left|]. intros q [<-|Hq]; [apply pair_irrefl|]. specialize (Hm q Hq).
      assert (E2 : pair_ltb x y = false) by (destruct (pair_ltb x y) eqn:E2; [|reflexivity]; pose proof (pair_trans _ _ _ E E2) as E3; now rewrite pair_irrefl in E3).
      eapply pair_le_trans; [exact Hm|exact E2].
    + split; [now right|]. intros q [<-|Hq]; [exact E|auto].
  - subst l. split; [now left|]. intros q [<-|[]]. apply pair_irrefl.
Qed.

Lemma contains_prefix m cwd : contains m cwd -> prefixb m cwd = true.
Proof.
  intros [[_ H]|[->|(rest & ->)]]; [exact H| |]; apply prefixb_spec; [exists []; now rewrite app_nil_r|now exists (lit "/" ++ rest)].
Qed.

Lemma device_text cwd lines tbl : Forall2 mount_line lines tbl ->
  (forall e, In e tbl -> prefixb (snd e) cwd = false) /\ discoverCurrentWorkingDevice cwd lines = Ok (lit "<unknown>") \/
  exists dev m, discoverCurrentWorkingDevice cwd lines = Ok dev /\ In (dev, m) tbl /\ prefixb m cwd = true /\
    forall d' m', In (d', m') tbl -> prefixb m' cwd = true -> length m' < length m \/ m' = m /\ str_ltb dev d' = false.
Proof.
  intros H. unfold discoverCurrentWorkingDevice. rewrite (poss _ _ _ H). cbn [rbind]. pose proof (greatest_ok (textual cwd tbl)) as G.
  destruct (greatest (textual cwd tbl)) as [[n dev]|].
  - right. destruct G as [Gi Gm]. unfold textual in Gi. apply in_map_iff in Gi as ([d m] & E & Hi). apply filter_In in Hi as [Hi Hp]. cbn [fst snd] in *. injection E as <- ->.
    exists dev, m. split; [reflexivity|]. split; [exact Hi|]. split; [exact Hp|]. intros d' m' Hi' Hp'.
    specialize (Gm (length m', d')). assert (Hin : In (length m', d') (textual cwd tbl)) by (apply in_map_iff; exists (d', m'); split; [reflexivity|]; apply filter_In; auto).
    specialize (Gm Hin). unfold pair_ltb in Gm. cbn [fst snd] in Gm. apply orb_false_iff in Gm as [G1 G2]. apply Nat.ltb_ge in G1.
    destruct (Nat.eq_dec (length m') (length m)) as [El|El]; [|left; lia]. right. rewrite El, Nat.eqb_refl in G2. cbn in G2. split; [|exact G2].
    apply prefixb_spec in Hp as (r & Er), Hp' as (r' & Er'). rewrite Er in Er'. clear - El Er'. revert m El Er'. induction m' as [|x m' IH]; intros [|y m] El E; try discriminate El; [reflexivity|].
    injection E as -> E. f_equal. apply IH; [now injection El|exact E].
  - left. split; [|reflexivity]. intros e He. destruct (prefixb (snd e) cwd) eqn:E; [|reflexivity].
    assert (Hin : In (length (snd e), fst e) (textual cwd tbl)) by (apply in_map_iff; exists e; split; [reflexivity|]; apply filter_In; auto). rewrite G in Hin. destruct Hin.
Qed.

Lemma device_deepest cwd lines tbl : Forall2 mount_line lines tbl -> (forall e, In e tbl -> prefixb (snd e) cwd = true -> contains (snd e) cwd) ->
  (exists e, In e tbl /\ contains (snd e) cwd) -> exists dev, discoverCurrentWorkingDevice cwd lines = Ok dev /\ on_device tbl cwd dev.
Proof.
  intros H Hc (e & He & Hce). destruct (device_text cwd lines tbl H) as [[Hn _]|(dev & m & E & Hi & Hp & Hm)].
  - specialize (Hn e He). rewrite (contains_prefix _ _ Hce) in Hn. discriminate.
  - exists dev. split; [exact E|]. exists m. split; [exact Hi|]. split; [exact (Hc _ Hi Hp)|]. intros d' m' Hi' Hc'. destruct (Hm d' m' Hi' (contains_prefix _ _ Hc')) as [|[-> _]]; lia.
Qed.

Lemma device_unique tbl cwd dev dev' : NoDup (map snd tbl) -> on_device tbl cwd dev -> on_device tbl cwd dev' -> dev = dev'.
Proof.
  intros Hd (m & Hi & Hc & Hm) (m' & Hi' & Hc' & Hm'). assert (El : length m = length m') by (apply Nat.le_antisymm; eauto).
  assert (m = m').
  { apply contains_prefix, prefixb_spec in Hc as (r & Er). apply contains_prefix, prefixb_spec in Hc' as (r' & Er'). rewrite Er in Er'. clear - El Er'. revert m' El Er'. induction m as [|x m IH]; intros [|y m'] El E; try discriminate El; [reflexivity|].
    injection E as -> E. f_equal. apply (IH m'); [now injection El|exact E]. }
  subst m'. clear - Hd Hi Hi'. induction tbl as [|[d k] tbl IH]; [destruct Hi|]. cbn in Hd. inversion Hd; subst.
  destruct Hi as [E|Hi], Hi' as [E'|Hi'].
  - congruence.
  - injection E as -> ->. destruct H1. change m with (snd (dev', m)). now apply in_map.
  - injection E' as -> ->. destruct H1. change m with (snd (dev, m)). now apply in_map.
  - apply IH; assumption.
Qed.

(** *** The back channel *)
Lemma back_quits now b p p' a rs : bench_data now 3 b p = (p', a, rs) -> Forall (fun r => r = Quit) rs /\ (a = Done -> length rs = length b /\ signals p' = signals p ++ repeat (lit "QUIT") (length b)).
Proof.
  unfold bench_data. cbn [N.eqb Pos.eqb]. unfold on_mix. destruct (snd (resetTimeout now (mix p))) eqn:Ea; intros [= <- <- <-]; cbn [mix waiting out timedOut results signals].
  - split; [apply Forall_forall; intros r Hr; apply in_map_iff in Hr as (x & <- & _); reflexivity|]. intros _. rewrite map_length. split; [reflexivity|]. f_equal. induction b; [reflexivity|]. cbn. now f_equal.
  - split; [constructor|discriminate].
  - split; [constructor|discriminate].
Qed.

Lemma back_other now fd b p : fd <> 3%N -> bench_data now fd b p = (happens now (Data fd b) p, []).
Proof. intros H. unfold bench_data. destruct (N.eqb_spec fd 3); [contradiction|reflexivity]. Qed.

(** ** Reporting *)

(** benchmark.py:485-486: what a process wrote to its standard error, and that it
    only closed it.  The function [later] itself is in BenchReport.v. *)
Definition stderr_of (o : output) : list (option str) := map snd (filter (fun x => (fst x =? 2)%N) o).
Definition opt_str_eqb (a b : option str) : bool := match a, b with Some x, Some y => eqb x y | None, None => true | _, _ => false end.
Definition only_closed (l : list (option str)) : bool := match l with [x] => opt_str_eqb x None | _ => false end.

(** the run went well: status 0, nothing on standard error but its closing *)
Definition went_well (r : outcome) : Prop := exists o, r = Success 0 o /\ (forall b, ~ In (2%N, Some b) o) /\ count_occ N.eq_dec (map fst o) 2%N = 1.

Lemma only_closed_ok o : only_closed (stderr_of o) = true <-> (forall b, ~ In (2%N, Some b) o) /\ count_occ N.eq_dec (map fst o) 2%N = 1.
Proof.
  assert (C : count_occ N.eq_dec (map fst o) 2%N = length (stderr_of o)).
  { unfold stderr_of. rewrite map_length. induction o as [|[fd x] o IH]; [reflexivity|]. cbn [map fst count_occ filter]. destruct (N.eq_dec fd 2) as [->|Hn]; [cbn; now rewrite IH|]. destruct (N.eqb_spec fd 2); [contradiction|exact IH]. }
  rewrite C. assert (I : forall b, In (2%N, Some b) o <-> In (Some b) (stderr_of o)).
  { intros b. unfold stderr_of. rewrite in_map_iff. split.
    - intros H. exists (2%N, Some b). split; [reflexivity|]. apply filter_In. auto.
    - intros ([fd x] & E & H). apply filter_In in H as [H E2]. cbn in *. apply N.eqb_eq in E2. subst. exact H. }
  setoid_rewrite I. clear. destruct (stderr_of o) as [|[b|] [|y l]]; cbn; split; try discriminate; try (intros [_ H]; discriminate); try tauto.
  - intros [H _]. destruct (H b). auto.
  - intros _. split; [|reflexivity]. intros b [H|[]]. discriminate.
Qed.

