(** * epsilon/scripts/benchmark.py: snapshots, changes and reports *)

From Coq Require Import ZArith NArith String List Bool Arith Lia.
From Verif Require Import Py PyStr PyNum PyInt PySplit Utf8 Liner JuiceCodec JuiceStream JuiceArgs Delayed Structlike Benchmark FilePath.
Import ListNotations.
Open Scope nat_scope.
Open Scope py_scope.

(** benchmark.py:80-95 [ResourceSnapshot].  [s_time] stands for a float. *)
Record snapshot := Snapshot { s_time : N; s_disk : option stat; s_partition : option stat; s_size : Z }.

(** benchmark.py:200-226 [Change]: the attributes, which exist once set *)
Record change := Change { c_before : option snapshot; c_after : option snapshot }.
Definition new_change : change := Change None None.

(** benchmark.py:204-226, [start] and [stop], for the size of the directory and the
    lines of /proc/diskstats read at that time *)
Definition take (time : N) (size : res Z) (lines : list str) (disk partition : str) : res snapshot :=
  size <- size ;;
  stats <- captureStats lines ;;
  Ok (Snapshot time (dget stats disk) (dget stats partition) size).

(** an attribute of a diskstat or partitionstat *)
Definition attrs_of (s : stat) : dict str Z := match s with Disk f | Partition f => f end.
Definition attr (s : stat) (name : str) : res Z :=
  match dget (attrs_of s) name with Some z => Ok z | None => Err AttributeError end.

(** [after.x.name - before.x.name] where [after.x] is not None; attributes of None
    raise AttributeError *)
Definition difference (after : stat) (before : option stat) (name : str) : res Z :=
  a <- attr after name ;;
  b <- match before with Some b => attr b name | None => Err AttributeError end ;;
  Ok (a - b)%Z.

(** benchmark.py:365-381: None for each, if there are no statistics after *)
Definition counter (after before : option stat) (name : str) : res val :=
  match after with
  | None => Ok VNone
  | Some a => z <- difference a before name ;; Ok (VInt z)
  end.

(** [host] of benchmark.py:356, [sys.hexversion] as text, and the versions of
    benchmark.py:383-384 *)
Record world := World { host : str; python : str; twisted : str; epsilon : str }.

(** benchmark.py:290-351 [Results.arguments]; [COther 0] is Float *)
Definition results_args : list (str * bool * codec) :=
  [(lit "version", false, CInteger); (lit "error", false, CBoolean); (lit "timeout", false, CBoolean);
   (lit "name", false, CUnicode); (lit "host", false, CUnicode); (lit "sector_size", false, CInteger);
   (lit "python_version", false, CUnicode); (lit "twisted_version", false, CUnicode); (lit "divmod_version", false, CUnicode);
   (lit "elapsed", false, COther 0); (lit "filesystem_growth", false, CInteger);
   (lit "read_count", true, CInteger); (lit "read_sectors", true, CInteger);
   (lit "write_count", true, CInteger); (lit "write_sectors", true, CInteger);
   (lit "read_ms", true, CInteger); (lit "write_ms", true, CInteger)].

Section Report.
  Variable ulower : str -> str.
  (** subtraction of floats, and [str] of a float (juice.py:530-532 [Float.toString]) *)
  Variable fminus : N -> N -> N.
  Variable fstr : N -> str.

  Definition float_out (n : N) (v : val) : res val :=
    match v with VOther t => Ok (VText (fstr t)) | _ => Err TypeError end.

  (** juice.py:655-673 [Command.do] with [requiresAnswer=False], for the box of
      [objectsToStrings]: juice.py:382-403 [sendBoxCommand] adds the name of the
      command, and juice.py:805-818 [sendPacket] writes the serialized box to the
      transport (epsilon/test/utils.py:24-28), here not locked and not starting TLS. *)
  Definition sent (st : res (dict str val)) (name : str) : res str :=
    st <- st ;; serialize_vals (dset st COMMAND (VText name)).

  (** benchmark.py:359-405 [formatResults]: what is written to the BytesIO.  What
      [makeConnection] logs is not modelled. *)
  Definition formatResults (wd : world) (name : str) (sectorSize : Z) (before after : snapshot) (error timeout : bool) : res str :=
    read_count <- counter (s_partition after) (s_partition before) (lit "readCount") ;;
    read_sectors <- counter (s_partition after) (s_partition before) (lit "readSectorCount") ;;
    write_count <- counter (s_partition after) (s_partition before) (lit "writeCount") ;;
    write_sectors <- counter (s_partition after) (s_partition before) (lit "writeSectorCount") ;;
    read_ms <- counter (s_disk after) (s_disk before) (lit "readMilliseconds") ;;
    write_ms <- counter (s_disk after) (s_disk before) (lit "writeMilliseconds") ;;
    kw <- command_init ulower (map fst results_args)
      [(lit "version", VInt 0); (lit "error", VBool error); (lit "timeout", VBool timeout);
       (lit "name", VText name); (lit "host", VText (host wd));
       (lit "elapsed", VOther (fminus (s_time after) (s_time before)));
       (lit "sector_size", VInt sectorSize);
       (lit "read_count", read_count); (lit "read_sectors", read_sectors); (lit "read_ms", read_ms);
       (lit "write_count", write_count); (lit "write_sectors", write_sectors); (lit "write_ms", write_ms);
       (lit "filesystem_growth", VInt (s_size after - s_size before));
       (lit "python_version", VText (python wd)); (lit "twisted_version", VText (twisted wd));
       (lit "divmod_version", VText (epsilon wd))] ;;
    sent (objectsToStrings ulower (encs ulower float_out results_args) kw) (lit "Result").

  (** benchmark.py:468-501, the function [later] of [_bench]: what is passed to
      reportResults, and what the loop ends with.  What is logged and printed is not
      modelled; [sector] is the answer of [getSectorSize]. *)
  Fixpoint report_all (wd : world) (sector : Z) (err timeout : bool) (l : list (str * change)) : list str * option exn :=
    match l with
    | [] => ([], None)
    | (n, c) :: t =>
      match c_before c, c_after c with
      | Some before, Some after =>
        match formatResults wd n sector before after err timeout with
        | Ok w => let '(ws, x) := report_all wd sector err timeout t in (w :: ws, x)
        | Err e => ([], Some e)
        end
      | _, _ => ([], Some AttributeError)
      end
    end.

  Definition later (wd : world) (sector : Z) (name : str) (overall bench : change) (r : outcome) : list str * option exn :=
    match r with
    | Success status o =>
      let err := negb (status =? 0)%Z || negb (only_closed (stderr_of o)) in
      report_all wd sector err false [(name ++ lit "-overall", overall); (name ++ lit "-benchmark", bench)]
    | _ => ([], None)
    end.
End Report.

(** benchmark.py:409-413 [reportResults]: the file 'output', appended to *)
Definition reportResults (file results : str) : str := file ++ results.

(** ** BenchmarkProcess *)

Record bproc := BProc { b_proc : proc; b_overall : change; b_bench : change }.

(** benchmark.py:237-249, where [s] is the snapshot of [overallChange.start] *)
Definition new_bproc (s : snapshot) : bproc := BProc new_proc (Change (Some s) None) new_change.

(** benchmark.py:256-263 [startTiming], [stopTiming], for the bytes of one call of
    [childDataReceived]; what is written back to the child is not modelled *)
Fixpoint timings (snap : res snapshot) (rs : list reaction) (c : change) : change * answer :=
  match rs with
  | [] => (c, Done)
  | Quit :: t => timings snap t c
  | StartTiming :: t => match snap with Ok s => timings snap t (Change (Some s) (c_after c)) | Err e => (c, Raised e) end
  | StopTiming :: t => match snap with Ok s => timings snap t (Change (c_before c) (Some s)) | Err e => (c, Raised e) end
  end.

(** benchmark.py:252-281, over BasicProcess; [snap] is what a snapshot taken at this
    moment gives *)
Definition b_happens (now : Z) (snap : res snapshot) (e : pevent) (b : bproc) : bproc * answer :=
  match e with
  | Data fd d =>
    let '(p, a, rs) := bench_data now fd d (b_proc b) in
    let '(c, a') := timings snap rs (b_bench b) in
    (BProc p (b_overall b) c, match a with Done => a' | _ => a end)
  | Ended r =>
    match snap with
    | Ok s => let '(p, a) := happens now (Ended r) (b_proc b) in
              (BProc p (Change (c_before (b_overall b)) (Some s)) (b_bench b), a)
    | Err x => (b, Raised x)
    end
  | _ => let '(p, a) := happens now e (b_proc b) in (BProc p (b_overall b) (b_bench b), a)
  end.

Definition bevent := (Z * res snapshot * pevent)%type.
Fixpoint b_history (l : list bevent) (b : bproc) : bproc :=
  match l with [] => b | (now, snap, e) :: t => b_history t (fst (b_happens now snap e b)) end.

(** *** The disk of a partition *)

(** benchmark.py:241-242: device.split('/')[-1], and rstrip('0123456789') of it *)
Definition partition_name (device : str) : str := last (split (lit "/") device) [].
Fixpoint drop_digits (s : str) : str := match s with c :: t => if is_digit c then drop_digits t else s | [] => [] end.
Definition disk_name (partition : str) : str := rev (drop_digits (rev partition)).

(** ** Specifications *)

(** The names are text that can be sent. *)
Definition sane (wd : world) (name : str) : Prop :=
  encodable name = true /\ encodable (host wd) = true /\ encodable (python wd) = true /\
  encodable (twisted wd) = true /\ encodable (epsilon wd) = true.

(** The statistics after have counterparts before, with all the named counters. *)
Definition comparable (names : list str) (after before : option stat) : Prop :=
  match after with
  | None => True
  | Some a => exists b, before = Some b /\ forall n, In n names -> dget (attrs_of a) n <> None /\ dget (attrs_of b) n <> None
  end.

Definition partition_counters : list str := [lit "readCount"; lit "readSectorCount"; lit "writeCount"; lit "writeSectorCount"].
Definition disk_counters : list str := [lit "readMilliseconds"; lit "writeMilliseconds"].
Definition comparable_snapshots (before after : snapshot) : Prop :=
  comparable partition_counters (s_partition after) (s_partition before) /\ comparable disk_counters (s_disk after) (s_disk before).

(** A numeral for [z] is reported as [key]. *)
Definition reports (box : dict str str) (key : str) (z : Z) : Prop := exists t, dget box key = Some t /\ py_int t = Ok z.

(** The growth of a counter is reported, or, without statistics, nothing. *)
Definition reports_growth (box : dict str str) (key name : str) (after before : option stat) : Prop :=
  match after, before with
  | Some a, Some b => exists x y, dget (attrs_of a) name = Some x /\ dget (attrs_of b) name = Some y /\ reports box key (x - y)
  | _, _ => dget box key = None
  end.

Definition yes_no (b : bool) : str := if b then lit "True" else lit "False".

(** The box [box] reports the change from [before] to [after]; [elapsed] is the text
    of the time between them. *)
Record tells (box : dict str str) (wd : world) (name : str) (sector : Z) (before after : snapshot) (elapsed : str) (error timeout : bool) : Prop := {
  t_command : dget box COMMAND = Some (lit "Result");
  t_version : dget box (lit "version") = Some (lit "0");
  t_error : dget box (lit "error") = Some (yes_no error);
  t_timeout : dget box (lit "timeout") = Some (yes_no timeout);
  t_name : dget box (lit "name") = Some name;
  t_host : dget box (lit "host") = Some (host wd);
  t_python : dget box (lit "python_version") = Some (python wd);
  t_twisted : dget box (lit "twisted_version") = Some (twisted wd);
  t_divmod : dget box (lit "divmod_version") = Some (epsilon wd);
  t_elapsed : dget box (lit "elapsed") = Some elapsed;
  t_sector : reports box (lit "sector_size") sector;
  t_size : reports box (lit "filesystem_growth") (s_size after - s_size before);
  t_read_count : reports_growth box (lit "read_count") (lit "readCount") (s_partition after) (s_partition before);
  t_read_sectors : reports_growth box (lit "read_sectors") (lit "readSectorCount") (s_partition after) (s_partition before);
  t_write_count : reports_growth box (lit "write_count") (lit "writeCount") (s_partition after) (s_partition before);
  t_write_sectors : reports_growth box (lit "write_sectors") (lit "writeSectorCount") (s_partition after) (s_partition before);
  t_read_ms : reports_growth box (lit "read_ms") (lit "readMilliseconds") (s_disk after) (s_disk before);
  t_write_ms : reports_growth box (lit "write_ms") (lit "writeMilliseconds") (s_disk after) (s_disk before);
  t_nothing_else : forall k, In k (keys box) -> k = COMMAND \/ In k (map (fun a => fst (fst a)) results_args)
}.

(** ** Proofs *)

Lemma counter_ok names after before : comparable names after before -> forall n, In n names ->
  match after, before with
  | None, _ => counter after before n = Ok VNone
  | Some a, Some b => exists x y, dget (attrs_of a) n = Some x /\ dget (attrs_of b) n = Some y /\ counter after before n = Ok (VInt (x - y))
  | Some _, None => False
  end.
Proof.
  intros H n Hn. destruct after as [a|]; [|reflexivity]. destruct H as (b & -> & H). destruct (H n Hn) as [Ha Hb].
  unfold counter, difference, attr. destruct (dget (attrs_of a) n) as [x|]; [|congruence]. destruct (dget (attrs_of b) n) as [y|]; [|congruence].
  exists x, y. auto.
Qed.

Lemma zdec_encodable z : encodable (zdec z) = true.
Proof.
  apply utf8_encode_ok. exists (zdec z). apply utf8_encode_ascii. eapply Forall_impl; [|apply zdec_ascii]. intros c H. cbv beta in H. lia.
Qed.

Section Sent.
  Variable ulower : str -> str.
  Hypothesis ulower_ascii : forall s, is_ascii s = true -> ulower s = map ascii_lower s.
  Variable fminus : N -> N -> N.
  Variable fstr : N -> str.
  Hypothesis fstr_ok : forall t, encodable (fstr t) = true.

  Lemma canonical_ascii k : is_ascii k = true -> canonical ulower k = canonical (map ascii_lower) k.
  Proof. intros H. unfold canonical, normalizeKey. now rewrite ulower_ascii. Qed.

  Lemma canonical_all ks : forallb (fun k => is_ascii k && canonical (map ascii_lower) k) ks = true -> Forall (fun k => canonical ulower k = true) ks.
  Proof.
    intros H. apply Forall_forall. intros k Hk. rewrite forallb_forall in H. specialize (H k Hk). apply andb_prop in H as [H1 H2]. now rewrite canonical_ascii.
  Qed.

  Lemma canonical_normal k : canonical ulower k = true -> normalizeKey ulower k = k.
  Proof. unfold canonical. rewrite !andb_true_iff. intros [[_ H] _]. destruct (eqb_spec (normalizeKey ulower k) k); [assumption|discriminate]. Qed.

  Lemma same_elems (a b : list str) : forallb (fun k => memb k b) a && forallb (fun k => memb k a) b = true -> forall k, In k a <-> In k b.
  Proof.
    intros H. apply andb_prop in H as [H1 H2]. rewrite forallb_forall in H1, H2. intros k. split; intros H; apply memb_In; auto.
  Qed.

  Fixpoint distinct (l : list str) : bool := match l with [] => true | k :: t => negb (memb k t) && distinct t end.
  Lemma distinct_NoDup l : distinct l = true -> NoDup l.
  Proof.
    induction l as [|k l IH]; [constructor|]. cbn. intros H. apply andb_prop in H as [H1 H2]. constructor; [|auto]. intros H. apply memb_In in H. now rewrite H in H1.
  Qed.

  (** A command whose keywords are its arguments, in any order, and what is sent. *)
  Lemma command_sent subs oenc kw items name b :
    NoDup (map sub_name subs) -> ~ In COMMAND (map sub_name subs) -> ~ In BODY (map sub_name subs) ->
    Forall (fun k => canonical ulower k = true) (COMMAND :: map sub_name subs) ->
    wf_dict kw -> (forall k, In k (keys kw) <-> In k (map sub_name subs)) ->
    Forall (ready kw) (encs ulower oenc subs) ->
    flat_map (item_of kw) (encs ulower oenc subs) = items ->
    Forall2 (fun i j => fst i = fst j /\ arrives (snd i) (snd j)) items b ->
    encodable name = true ->
    exists w, (kw' <- command_init ulower (map fst subs) kw ;; sent (objectsToStrings ulower (encs ulower oenc subs) kw') name) = Ok w /\
      serialize (texts (b ++ [(COMMAND, name)])) = Ok w /\ sendable ulower (b ++ [(COMMAND, name)]) /\
      parseString ulower w = Ok [b ++ [(COMMAND, name)]].
  Proof.
    intros Hnd Hc Hb Hcan Hw Hk Hr Hi HF Hn.
    assert (Hno : Forall (fun k => normalizeKey ulower k = k) (keys kw)).
    { apply Forall_forall. intros k H. apply Hk in H. rewrite Forall_forall in Hcan. apply canonical_normal, Hcan. now right. }
    assert (E1 : command_init ulower (map fst subs) kw = Ok kw).
    { destruct (command_init_spec ulower (map fst subs) kw) as [(_ & n & H & H2)|[H _]]; [exfalso|exact H].
      apply in_map_iff in H as ([[n' o] c] & E & H). cbn in E. injection E as -> ->.
      apply (H2 n); [|reflexivity]. apply Hk. apply in_map_iff. exists (n, false, c). auto. }
    rewrite E1. cbn [rbind]. unfold sent, objectsToStrings. rewrite normalized_id by assumption.
    rewrite toBoxes_ok; [|now rewrite name_encs|intros a _ []|exact Hr]. cbn [rbind app]. rewrite Hi.
    assert (Ki : forall k, In k (keys items) -> In k (map sub_name subs)).
    { intros k H. rewrite <- Hi in H. apply keys_items in H. now rewrite name_encs in H. }
    assert (Kb : keys items = keys b).
    { clear - HF. unfold keys. induction HF as [|i j l l' [E _] HF IH]; [reflexivity|]. cbn [map]. now rewrite E, IH. }
    rewrite dset_new by (intros H; apply Hc; now apply Ki).
    assert (HF2 : Forall2 item_arrives (items ++ [(COMMAND, VText name)]) (b ++ [(COMMAND, name)])).
    { apply Forall2_app.
      - assert (Kn : ~ In BODY (keys items)) by (intros H; apply Hb; now apply Ki).
        clear - HF Kn. induction HF as [|[k e] [k' s] l l' [E A] HF IH]; [constructor|]. cbn [fst snd keys map] in *. subst k'.
        constructor; [|apply IH; intros H; apply Kn; now right]. split; [reflexivity|]. split; [exact A|]. cbn. intros ->. destruct Kn. now left.
      - constructor; [|constructor]. split; [reflexivity|]. split; [now apply arrives_text|]. cbn. discriminate. }
    rewrite (serialize_arrives _ _ HF2).
    assert (Wi : NoDup (keys items)) by (rewrite <- Hi; apply wf_items; now rewrite name_encs).
    assert (S : sendable ulower (b ++ [(COMMAND, name)])).
    { assert (Kc : ~ In COMMAND (keys b)) by (rewrite <- Kb; intros H; apply Hc; now apply Ki).
      assert (Vb : Forall (fun v => encodable v = true) (values b)).
      { clear - HF. unfold values. induction HF as [|i j l l' [_ (p & w & _ & _ & E)] HF IH]; [constructor|]. cbn [map]. constructor; [|exact IH]. apply utf8_encode_ok. eauto. }
      split; [|split; [|split]].
      - rewrite <- (dset_new b) by exact Kc. apply wf_dset. unfold wf_dict. now rewrite <- Kb.
      - inversion Hcan as [|? ? C1 C2]; subst. unfold keys. rewrite map_app. apply Forall_app. split; [|constructor; [exact C1|constructor]].
        fold (keys b). rewrite <- Kb. apply Forall_forall. intros k H. rewrite Forall_forall in C2. apply C2. now apply Ki.
      - unfold values. rewrite map_app. apply Forall_app. split; [exact Vb|]. constructor; [exact Hn|constructor].
      - intros v H. exfalso. apply dget_Some_keys in H. unfold keys in H. rewrite map_app in H. apply in_app_or in H as [H|[H|[]]]; [|discriminate].
        apply Hb, Ki. rewrite Kb. exact H. }
    destruct (roundtrip ulower ulower_ascii _ S) as (w & Hs & Hp). exists w. split; [exact Hs|]. split; [exact Hs|]. split; [exact S|].
    rewrite Hp. unfold received.
    replace (dget (b ++ [(COMMAND, name)]) BODY) with (@None str); [reflexivity|]. symmetry. apply dget_None. unfold keys. rewrite map_app. intros H. apply in_app_or in H as [H|[H|[]]]; [|discriminate].
    apply Hb, Ki. rewrite Kb. exact H.
  Qed.

  (** what formatResults sends, from the six counters *)
  Definition num (z : option Z) : val := match z with Some z => VInt z | None => VNone end.
  Definition field (k : str) (z : option Z) : dict str str := match z with Some z => [(k, zdec z)] | None => [] end.

  Definition report_box (wd : world) (name : str) (sector : Z) (before after : snapshot) (error timeout : bool) (c : list (option Z)) : dict str str :=
    [(lit "version", lit "0"); (lit "error", yes_no error); (lit "timeout", yes_no timeout);
     (lit "name", name); (lit "host", host wd); (lit "sector_size", zdec sector);
     (lit "python_version", python wd); (lit "twisted_version", twisted wd); (lit "divmod_version", epsilon wd);
     (lit "elapsed", fstr (fminus (s_time after) (s_time before)));
     (lit "filesystem_growth", zdec (s_size after - s_size before))] ++
    flat_map (fun kc => field (fst kc) (snd kc))
      (combine [lit "read_count"; lit "read_sectors"; lit "write_count"; lit "write_sectors"; lit "read_ms"; lit "write_ms"] c).

  Lemma arrives_bytes s w : utf8_encode s = Ok w -> arrives (VBytes w) s.
  Proof. intros H. exists (PB w), w. auto. Qed.

  (** what becomes of one argument *)
  Definition goes (oenc : N -> val -> res val) (kw : dict str val) (a : str * bool * codec) (f : dict str str) : Prop :=
    exists v, dget kw (sub_name a) = Some v /\
      (snd (fst a) = true /\ v = VNone /\ f = [] \/
       is_none v = false /\ exists e s, encode ulower oenc (snd a) v = Ok e /\ arrives e s /\ f = [(sub_name a, s)]).

  Lemma goes_ready oenc kw subs fs : Forall2 (goes oenc kw) subs fs ->
    Forall (ready kw) (encs ulower oenc subs) /\
    Forall2 (fun i j => fst i = fst j /\ arrives (snd i) (snd j)) (flat_map (item_of kw) (encs ulower oenc subs)) (concat fs).
  Proof.
    intros H. induction H as [|[[n o] c] f subs fs (v & Ev & Hv) HF [IH1 IH2]]; [split; constructor|].
    change (encs ulower oenc ((n, o, c) :: subs)) with ((n, o, encode ulower oenc c) :: encs ulower oenc subs). cbn [sub_name fst snd] in *.
    cbn [flat_map concat]. split; [constructor; [|exact IH1]|apply Forall2_app; [|exact IH2]]; cbn [ready item_of]; rewrite Ev.
    - destruct Hv as [(-> & -> & _)|(_ & e & s & E & _)]; [now left|right; eauto].
    - destruct Hv as [(-> & -> & ->)|(Hn & e & s & E & A & ->)]; [constructor|]. rewrite Hn, andb_false_r, E. constructor; [|constructor]. auto.
  Qed.

  Lemma goes_int oenc kw n o z : dget kw n = Some (VInt z) -> goes oenc kw (n, o, CInteger) [(n, zdec z)].
  Proof.
    intros H. exists (VInt z). split; [exact H|]. right. split; [reflexivity|]. exists (VText (zdec z)), (zdec z). split; [reflexivity|]. split; [|reflexivity].
    apply arrives_text. apply zdec_encodable.
  Qed.
  Lemma goes_num oenc kw n z : dget kw n = Some (num z) -> goes oenc kw (n, true, CInteger) (field n z).
  Proof. intros H. destruct z as [z|]; [now apply goes_int|]. exists VNone. split; [exact H|]. now left. Qed.
  Lemma goes_bool oenc kw n o b : dget kw n = Some (VBool b) -> goes oenc kw (n, o, CBoolean) [(n, yes_no b)].
  Proof.
    intros H. exists (VBool b). split; [exact H|]. right. split; [reflexivity|]. exists (VText (yes_no b)), (yes_no b). split; [reflexivity|]. split; [|reflexivity].
    apply arrives_text. now destruct b.
  Qed.
  Lemma goes_text oenc kw n o s : encodable s = true -> dget kw n = Some (VText s) -> goes oenc kw (n, o, CUnicode) [(n, s)].
  Proof.
    intros Hs H. apply utf8_encode_ok in Hs as [w Hs]. exists (VText s). split; [exact H|]. right. split; [reflexivity|]. exists (VBytes w), s. cbn. rewrite Hs. split; [reflexivity|]. split; [|reflexivity].
    now apply arrives_bytes.
  Qed.
  Lemma goes_float kw n o i t : dget kw n = Some (VOther t) -> goes (float_out fstr) kw (n, o, COther i) [(n, fstr t)].
  Proof.
    intros H. exists (VOther t). split; [exact H|]. right. split; [reflexivity|]. exists (VText (fstr t)), (fstr t). split; [reflexivity|]. split; [|reflexivity].
    now apply arrives_text.
  Qed.

  Lemma args_names : NoDup (map sub_name results_args) /\ ~ In COMMAND (map sub_name results_args) /\ ~ In BODY (map sub_name results_args).
  Proof.
    split; [apply distinct_NoDup; vm_compute; reflexivity|]. split; intros H; apply memb_In in H; vm_compute in H; discriminate.
  Qed.

  Lemma format_sent wd name sector before after error timeout c1 c2 c3 c4 c5 c6 :
    sane wd name ->
    counter (s_partition after) (s_partition before) (lit "readCount") = Ok (num c1) ->
    counter (s_partition after) (s_partition before) (lit "readSectorCount") = Ok (num c2) ->
    counter (s_partition after) (s_partition before) (lit "writeCount") = Ok (num c3) ->
    counter (s_partition after) (s_partition before) (lit "writeSectorCount") = Ok (num c4) ->
    counter (s_disk after) (s_disk before) (lit "readMilliseconds") = Ok (num c5) ->
    counter (s_disk after) (s_disk before) (lit "writeMilliseconds") = Ok (num c6) ->
    let b := report_box wd name sector before after error timeout [c1; c2; c3; c4; c5; c6] ++ [(COMMAND, lit "Result")] in
    exists w, formatResults ulower fminus fstr wd name sector before after error timeout = Ok w /\
      serialize (texts b) = Ok w /\ sendable ulower b /\ parseString ulower w = Ok [b].
  Proof.
    intros (Hn & Hh & Hp & Ht & He) E1 E2 E3 E4 E5 E6 b. subst b. unfold formatResults. rewrite E1, E2, E3, E4, E5, E6. cbn [rbind].
    match goal with |- context [command_init _ _ ?k] => set (kw := k) end.
    set (fs := [[(lit "version", zdec 0)]; [(lit "error", yes_no error)]; [(lit "timeout", yes_no timeout)];
      [(lit "name", name)]; [(lit "host", host wd)]; [(lit "sector_size", zdec sector)];
      [(lit "python_version", python wd)]; [(lit "twisted_version", twisted wd)]; [(lit "divmod_version", epsilon wd)];
      [(lit "elapsed", fstr (fminus (s_time after) (s_time before)))];
      [(lit "filesystem_growth", zdec (s_size after - s_size before))];
      field (lit "read_count") c1; field (lit "read_sectors") c2; field (lit "write_count") c3; field (lit "write_sectors") c4;
      field (lit "read_ms") c5; field (lit "write_ms") c6]).
    assert (G : Forall2 (goes (float_out fstr) kw) results_args fs).
    { unfold results_args, fs. repeat (apply Forall2_cons; [first [apply goes_num; reflexivity|apply goes_int; reflexivity|apply goes_bool; reflexivity|apply goes_text; [assumption|reflexivity]|apply goes_float; reflexivity]|]). constructor. }
    apply goes_ready in G as [G1 G2].
    replace (report_box wd name sector before after error timeout [c1; c2; c3; c4; c5; c6]) with (concat fs).
    2:{ unfold fs, report_box. cbn [concat combine flat_map fst snd app]. reflexivity. }
    destruct args_names as (A1 & A2 & A3).
    assert (W : wf_dict kw) by (apply distinct_NoDup; vm_compute; reflexivity).
    assert (K : forall k, In k (keys kw) <-> In k (map sub_name results_args)) by (apply same_elems; vm_compute; reflexivity).
    assert (C : Forall (fun k => canonical ulower k = true) (COMMAND :: map sub_name results_args)) by (apply canonical_all; vm_compute; reflexivity).
    clearbody kw fs.
    pose proof (command_sent results_args (float_out fstr) kw _ (lit "Result") (concat fs) A1 A2 A3 C W K G1 eq_refl G2 eq_refl) as X. exact X.
  Qed.

  (** the six counters, if they can be compared *)
  Definition growth (after before : option stat) (n : str) : option Z :=
    match after, before with
    | Some a, Some b => match dget (attrs_of a) n, dget (attrs_of b) n with Some x, Some y => Some (x - y)%Z | _, _ => None end
    | _, _ => None
    end.

  Lemma counter_growth names after before n : comparable names after before -> In n names ->
    counter after before n = Ok (num (growth after before n)).
  Proof.
    intros H Hn. pose proof (counter_ok names after before H n Hn) as C. unfold growth. destruct after as [a|]; [|exact C]. destruct before as [b|]; [|contradiction].
    destruct C as (x & y & -> & -> & ->). reflexivity.
  Qed.

  Lemma get_field_neq k k' z : k <> k' -> dget (field k' z) k = None.
  Proof. intros H. destruct z; [|reflexivity]. cbn [field dget]. apply eqb_neq in H. now rewrite H. Qed.

  Definition growths (before after : snapshot) : list (option Z) :=
    map (growth (s_partition after) (s_partition before)) partition_counters ++ map (growth (s_disk after) (s_disk before)) disk_counters.

  Definition sent_box (wd : world) (name : str) (sector : Z) (before after : snapshot) (error timeout : bool) : dict str str :=
    report_box wd name sector before after error timeout (growths before after) ++ [(COMMAND, lit "Result")].

  Lemma format_comparable wd name sector before after error timeout : sane wd name -> comparable_snapshots before after ->
    let b := sent_box wd name sector before after error timeout in
    exists w, formatResults ulower fminus fstr wd name sector before after error timeout = Ok w /\
      serialize (texts b) = Ok w /\ sendable ulower b /\ parseString ulower w = Ok [b].
  Proof.
    intros Hs [Hp Hd]. apply format_sent; [exact Hs|..]; (eapply counter_growth; [eassumption|]); cbn; tauto.
  Qed.

  (** otherwise AttributeError, and nothing is sent *)
  Lemma counter_err after before n : counter after before n = Err AttributeError \/ exists z, counter after before n = Ok (num z).
  Proof.
    unfold counter, difference, attr. destruct after as [a|]; [|right; now exists None]. destruct (dget (attrs_of a) n) as [x|]; [|now left]. cbn [rbind].
    destruct before as [b|]; [|now left]. destruct (dget (attrs_of b) n) as [y|]; [|now left]. right. now exists (Some (x - y)%Z).
  Qed.

  Lemma counter_num names after before : (forall n, In n names -> exists z, counter after before n = Ok (num z)) -> names <> [] -> comparable names after before.
  Proof.
    intros H Hne. destruct after as [a|]; [|exact Logic.I]. cbn [comparable].
    assert (K : forall n, In n names -> exists b, before = Some b /\ dget (attrs_of a) n <> None /\ dget (attrs_of b) n <> None).
    { intros n Hn. destruct (H n Hn) as [z E]. unfold counter, difference, attr in E. destruct (dget (attrs_of a) n); [|discriminate]. cbn [rbind] in E.
      destruct before as [b|]; [|discriminate]. exists b. destruct (dget (attrs_of b) n); [|discriminate]. split; [reflexivity|]. split; discriminate. }
    destruct names as [|n0 ns]; [contradiction|]. destruct (K n0 (or_introl eq_refl)) as (b & -> & _). exists b. split; [reflexivity|]. intros n Hn.
    destruct (K n Hn) as (b' & [= <-] & H'). exact H'.
  Qed.

  Lemma format_error wd name sector before after error timeout : ~ comparable_snapshots before after ->
    formatResults ulower fminus fstr wd name sector before after error timeout = Err AttributeError.
  Proof.
    intros Hn. unfold formatResults.
    destruct (counter_err (s_partition after) (s_partition before) (lit "readCount")) as [->|[z1 E1]]; [reflexivity|]. rewrite E1. cbn [rbind].
    destruct (counter_err (s_partition after) (s_partition before) (lit "readSectorCount")) as [->|[z2 E2]]; [reflexivity|]. rewrite E2. cbn [rbind].
    destruct (counter_err (s_partition after) (s_partition before) (lit "writeCount")) as [->|[z3 E3]]; [reflexivity|]. rewrite E3. cbn [rbind].
    destruct (counter_err (s_partition after) (s_partition before) (lit "writeSectorCount")) as [->|[z4 E4]]; [reflexivity|]. rewrite E4. cbn [rbind].
    destruct (counter_err (s_disk after) (s_disk before) (lit "readMilliseconds")) as [->|[z5 E5]]; [reflexivity|]. rewrite E5. cbn [rbind].
    destruct (counter_err (s_disk after) (s_disk before) (lit "writeMilliseconds")) as [->|[z6 E6]]; [reflexivity|]. exfalso. apply Hn.
    split; apply counter_num; try discriminate; intros n H; cbn in H; repeat destruct H as [<-|H]; try contradiction; eauto.
  Qed.

  Lemma reports_zdec box k z : dget box k = Some (zdec z) -> reports box k z.
  Proof. intros H. exists (zdec z). split; [exact H|apply py_int_zdec]. Qed.

  Lemma growth_names names after before n : comparable names after before -> In n names ->
    match after, before with
    | Some a, Some b => exists x y, dget (attrs_of a) n = Some x /\ dget (attrs_of b) n = Some y /\ growth after before n = Some (x - y)%Z
    | _, _ => growth after before n = None
    end.
  Proof.
    intros H Hn. pose proof (counter_ok names after before H n Hn) as C. unfold growth. destruct after as [a|]; [|reflexivity]. destruct before as [b|]; [|reflexivity].
    destruct C as (x & y & -> & -> & _). eauto.
  Qed.

  Lemma growth_reported names after before n box k : comparable names after before -> In n names ->
    dget box k = option_map zdec (growth after before n) -> reports_growth box k n after before.
  Proof.
    intros H Hn E. pose proof (growth_names names after before n H Hn) as G. unfold reports_growth. destruct after as [a|]; [|now rewrite G in E]. destruct before as [b|]; [|now rewrite G in E].
    destruct G as (x & y & E1 & E2 & G). rewrite G in E. exists x, y. split; [exact E1|]. split; [exact E2|]. apply reports_zdec. exact E.
  Qed.

  Lemma box_tells wd name sector before after error timeout : comparable_snapshots before after ->
    tells (sent_box wd name sector before after error timeout) wd name sector before after (fstr (fminus (s_time after) (s_time before))) error timeout.
  Proof.
    intros [Hp Hd]. set (box := sent_box wd name sector before after error timeout).
    assert (G : forall i k n after' before' (names : list str),
      nth_error [(lit "read_count", lit "readCount"); (lit "read_sectors", lit "readSectorCount"); (lit "write_count", lit "writeCount"); (lit "write_sectors", lit "writeSectorCount");
        (lit "read_ms", lit "readMilliseconds"); (lit "write_ms", lit "writeMilliseconds")] i = Some (k, n) ->
      (after', before', names) = (if i <? 4 then (s_partition after, s_partition before, partition_counters) else (s_disk after, s_disk before, disk_counters)) ->
      reports_growth box k n after' before').
    { intros i k n a b names E E2. apply (growth_reported names).
      - destruct (i <? 4); injection E2 as -> -> ->; assumption.
      - do 6 (destruct i as [|i]; [injection E as <- <-; injection E2 as _ _ ->; cbn; tauto|]). destruct i; discriminate.
      - unfold box, sent_box, report_box, growths, partition_counters, disk_counters. cbn [map app combine flat_map fst snd].
        do 6 (destruct i as [|i]; [injection E as <- <-; injection E2 as -> -> ->; cbn [dget];
          repeat (match goal with |- context [eqb (lit ?a) (lit ?c)] => let v := eval vm_compute in (eqb (lit a) (lit c)) in change (eqb (lit a) (lit c)) with v; cbv iota end);
          rewrite !dget_app;
          repeat (match goal with |- context [dget (field (lit ?c) ?z) (lit ?a)] => rewrite (get_field_neq (lit a) (lit c) z) by discriminate; cbv iota end);
          match goal with |- context [field ?c ?z] => destruct z; reflexivity end|]).
        destruct i; discriminate. }
    set (rb := report_box wd name sector before after error timeout (growths before after)).
    assert (K0 : forall k, In k (keys rb) -> In k (map (fun a => fst (fst a)) results_args)).
    { intros k H. unfold rb, report_box, keys in H. rewrite !map_app in H. apply in_app_or in H as [H|H].
      - cbn [results_args map fst In] in H |- *. tauto.
      - apply in_map_iff in H as ([k' v] & E & H). cbn in E. subst k'. apply in_flat_map in H as ([k' z] & H1 & H2). cbn [fst snd] in H2. destruct z as [z|]; [|contradiction].
        destruct H2 as [H2|[]]. injection H2 as -> _. apply in_combine_l in H1. cbn [results_args map fst In] in H1 |- *. tauto. }
    assert (K : forall k, In k (keys box) -> k = COMMAND \/ In k (map (fun a => fst (fst a)) results_args)).
    { intros k H. unfold box, sent_box, keys in H. rewrite map_app in H. apply in_app_or in H as [H|[H|[]]]; [right; now apply K0|left; now symmetry]. }
    constructor; try reflexivity; try exact K.
    - unfold box, sent_box. fold rb. rewrite dget_app. replace (dget rb COMMAND) with (@None str); [reflexivity|].
      symmetry. apply dget_None. intros H. destruct args_names as (_ & A & _). apply A. now apply K0.
    - apply reports_zdec. reflexivity.
    - apply reports_zdec. reflexivity.
    - now apply (G 0) with (names := partition_counters).
    - now apply (G 1) with (names := partition_counters).
    - now apply (G 2) with (names := partition_counters).
    - now apply (G 3) with (names := partition_counters).
    - now apply (G 4) with (names := disk_counters).
    - now apply (G 5) with (names := disk_counters).
  Qed.

  (** formatResults, read back *)
  Lemma format_tells wd name sector before after error timeout : sane wd name -> comparable_snapshots before after ->
    exists w box, formatResults ulower fminus fstr wd name sector before after error timeout = Ok w /\ parseString ulower w = Ok [box] /\
      tells box wd name sector before after (fstr (fminus (s_time after) (s_time before))) error timeout.
  Proof.
    intros Hs Hc. destruct (format_comparable wd name sector before after error timeout Hs Hc) as (w & E & _ & _ & Ep).
    exists w, (sent_box wd name sector before after error timeout). split; [exact E|]. split; [exact Ep|]. now apply box_tells.
  Qed.

  (** the file of reports *)
  Definition run := (world * str * Z * snapshot * snapshot * bool * bool)%type.
  Definition run_ok (r : run) : Prop := let '(wd, name, sector, before, after, error, timeout) := r in sane wd name /\ comparable_snapshots before after.
  Definition run_format (r : run) : res str := let '(wd, name, sector, before, after, error, timeout) := r in formatResults ulower fminus fstr wd name sector before after error timeout.
  Definition run_told (r : run) (box : dict str str) : Prop :=
    let '(wd, name, sector, before, after, error, timeout) := r in tells box wd name sector before after (fstr (fminus (s_time after) (s_time before))) error timeout.

  Lemma runs_wires (rs : list run) : Forall run_ok rs -> exists ws bs, mapM run_format rs = Ok ws /\ wires bs ws /\ Forall (sendable ulower) bs /\ Forall (fun b => received b = b) bs /\ Forall2 run_told rs bs.
  Proof.
    induction 1 as [|r rs Hr HF (ws & bs & E & W & S & R & T)]; [exists [], []; repeat split; constructor|].
    destruct r as [[[[[[wd name] sector] before] after] error] timeout]. destruct Hr as [Hs Hc].
    destruct (format_comparable wd name sector before after error timeout Hs Hc) as (w & Ef & Es & Sb & Ep).
    set (b := sent_box wd name sector before after error timeout) in *. exists (w :: ws), (b :: bs). cbn [mapM run_format]. rewrite Ef. cbn [rbind]. rewrite E. cbn [rbind].
    split; [reflexivity|]. split; [constructor; assumption|]. split; [constructor; assumption|]. split; [constructor; [|assumption]|constructor; [|assumption]].
    - destruct (roundtrip ulower ulower_ascii b Sb) as (w' & Es' & Ep'). assert (w' = w) by congruence. subst w'. rewrite Ep in Ep'. now injection Ep'.
    - now apply box_tells.
  Qed.

  Lemma file_told (rs : list run) : Forall run_ok rs -> exists ws bs, mapM run_format rs = Ok ws /\
    parseString ulower (fold_left reportResults ws []) = Ok bs /\ Forall2 run_told rs bs.
  Proof.
    intros H. destruct (runs_wires rs H) as (ws & bs & E & W & S & R & T). exists ws, bs. split; [exact E|]. split; [|exact T].
    assert (F : forall ws f, fold_left reportResults ws f = f ++ concat ws).
    { clear. induction ws as [|w ws IH]; intros f; cbn [fold_left concat]; [now rewrite app_nil_r|]. rewrite IH. unfold reportResults. now rewrite app_assoc. }
    rewrite F. cbn [app]. rewrite parseString_bfin, (stream_bfin ulower ulower_ascii bs ws [] S W). cbn.
    f_equal. clear - R. induction R as [|b bs E R IH]; [reflexivity|]. cbn [map]. now rewrite E, IH.
  Qed.
End Sent.

(** *** What captureStats finds *)

Lemma struct_keys names (args : list Z) attrs : struct_init names [] args [] = Ok attrs -> keys attrs = names.
Proof.
  intros H. destruct (eqdec (keys attrs) names) as [E|E]; [exact E|]. exfalso.
  rewrite struct_init_err in H; [discriminate| |].
  - constructor.
  - intros [Hn Hc]. destruct (struct_init_ok names [] args [] Hn) as (attrs' & E1 & E2 & _); [constructor|exact Hc|]. rewrite H in E1. injection E1 as <-. contradiction.
Qed.

Definition whole (s : stat) : Prop := match s with Disk f => keys f = diskstat_names | Partition f => keys f = partitionstat_names end.

Lemma line_whole L n s : parseDiskStatLine L = Ok (n, s) -> whole s.
Proof.
  unfold parseDiskStatLine. destruct (nth_error _ 2) as [dev|]; [|discriminate]. destruct (utf8_decode dev); [|discriminate]. cbn [rbind].
  destruct (mapM py_int _) as [ns|]; [|discriminate]. cbn [rbind]. destruct (_ =? 7).
  - destruct (struct_init _ _ _ _) as [f|] eqn:E; [|discriminate]. cbn. intros [= _ <-]. exact (struct_keys _ _ _ E).
  - destruct (struct_init _ _ _ _) as [f|] eqn:E; [|discriminate]. cbn. intros [= _ <-]. exact (struct_keys _ _ _ E).
Qed.

Lemma capture_whole lines d k s : captureStats lines = Ok d -> dget d k = Some s -> whole s.
Proof.
  intros H Hg. destruct (capture_get lines d H) as (l & E & G). rewrite G in Hg. clear G H.
  assert (A : Forall (fun p => whole (snd p)) l).
  { clear Hg. revert l E. induction lines as [|L lines IH]; intros l E; cbn in E; [injection E as <-; constructor|].
    destruct (parseDiskStatLine L) as [[n x]|] eqn:EL; [|discriminate]. cbn [rbind] in E. destruct (mapM parseDiskStatLine lines) as [l'|]; [|discriminate]. injection E as <-.
    constructor; [exact (line_whole _ _ _ EL)|now apply IH]. }
  assert (B : forall a, (forall x, a = Some x -> whole x) -> forall x, fold_left (fun a (p : str * stat) => if eqb (fst p) k then Some (snd p) else a) l a = Some x -> whole x).
  { clear - A. induction A as [|[n y] l Hy A IH]; intros a Ha x; cbn [fold_left]; [apply Ha|]. apply IH. cbn [fst snd] in *. destruct (eqb n k); [intros z [= <-]; exact Hy|exact Ha]. }
  apply (B None) with (2 := Hg). discriminate.
Qed.

Lemma whole_partition s n : whole s -> In n partition_counters -> dget (attrs_of s) n <> None.
Proof.
  intros H Hn. destruct s as [f|f]; cbn [whole attrs_of] in *.
  all: intros E; apply dget_None in E; apply E; rewrite H; clear - Hn; apply memb_In; cbn in Hn; repeat destruct Hn as [<-|Hn]; try contradiction; reflexivity.
Qed.

Lemma whole_disk f n : keys f = diskstat_names -> In n disk_counters -> dget f n <> (None : option Z).
Proof.
  intros H Hn E. apply dget_None in E. apply E. rewrite H. clear - Hn. apply memb_In. cbn in Hn. repeat destruct Hn as [<-|Hn]; try contradiction; reflexivity.
Qed.

Lemma take_comparable t1 size1 lines1 t2 size2 lines2 disk partition before after :
  take t1 size1 lines1 disk partition = Ok before -> take t2 size2 lines2 disk partition = Ok after ->
  (s_partition before = None -> s_partition after = None) ->
  (forall s, s_disk after = Some s -> exists f g, s = Disk f /\ s_disk before = Some (Disk g)) ->
  comparable_snapshots before after.
Proof.
  unfold take. destruct size1 as [z1|]; [|discriminate]. destruct size2 as [z2|]; [|discriminate]. cbn [rbind].
  destruct (captureStats lines1) as [d1|] eqn:E1; [|discriminate]. destruct (captureStats lines2) as [d2|] eqn:E2; [|discriminate]. cbn [rbind].
  intros [= <-] [= <-]. unfold comparable_snapshots, comparable. cbn [s_partition s_disk]. intros Hp Hd. split.
  - destruct (dget d2 partition) as [a|] eqn:Ea; [|exact Logic.I]. destruct (dget d1 partition) as [b|] eqn:Eb; [|discriminate (Hp eq_refl)].
    exists b. split; [reflexivity|]. intros n Hn. split; apply whole_partition; eauto using capture_whole.
  - destruct (dget d2 disk) as [a|] eqn:Ea; [|exact Logic.I]. destruct (Hd a eq_refl) as (f & g & -> & Eb). exists (Disk g). split; [exact Eb|]. intros n Hn.
    pose proof (capture_whole _ _ _ _ E2 Ea) as W2. pose proof (capture_whole _ _ _ _ E1 Eb) as W1. split; apply whole_disk; assumption.
Qed.

(** *** Histories of a BenchmarkProcess *)

Lemma timings_quit snap rs c : Forall (fun r => r = Quit) rs -> timings snap rs c = (c, Done).
Proof. induction 1 as [|r rs -> H IH]; [reflexivity|exact IH]. Qed.

Definition b_inv (s0 : snapshot) (b : bproc) : Prop := c_before (b_overall b) = Some s0 /\ b_bench b = new_change.

Lemma b_inv_step s0 now snap e b : b_inv s0 b -> b_inv s0 (fst (b_happens now snap e b)).
Proof.
  intros [H1 H2]. destruct e as [|fd d|fd|r|]; cbn [b_happens].
  - destruct (happens now Connected (b_proc b)). split; assumption.
  - destruct (bench_data now fd d (b_proc b)) as [[p a] rs] eqn:E. rewrite timings_quit.
    + split; assumption.
    + unfold bench_data in E. destruct (fd =? 3)%N.
      * destruct (on_mix _ _) as [p' [| |]]; injection E as _ _ <-; try constructor. apply Forall_forall. intros r Hr. apply in_map_iff in Hr as (x & <- & _). reflexivity.
      * injection E as _ <-. constructor.
  - destruct (happens now (Closed fd) (b_proc b)). split; assumption.
  - destruct snap as [s|x]; [|split; assumption]. destruct (happens now (Ended r) (b_proc b)). split; assumption.
  - destruct (happens now Tick (b_proc b)). split; assumption.
Qed.

Lemma b_inv_history s0 l : forall b, b_inv s0 b -> b_inv s0 (b_history l b).
Proof. induction l as [|[[now snap] e] l IH]; intros b H; [exact H|]. cbn [b_history]. apply IH. now apply b_inv_step. Qed.

Lemma happens_results now e p : (forall r, e <> Ended r) -> results (fst (happens now e p)) = results p.
Proof.
  intros H. destruct e as [|fd d|fd|r|]; cbn [happens]; try reflexivity; try (now destruct (H r)).
  all: unfold receive; destruct (on_mix _ _) as [p' a] eqn:E; injection E as <- _; cbn [out results]; destruct a; cbn; try reflexivity; destruct (out p); reflexivity.
Qed.

(** When whenFinished is fired, the overall change is complete and the other one
    was never begun. *)
Lemma b_finished l s0 now snap e r : let b := b_history l (new_bproc s0) in let b' := fst (b_happens now snap e b) in
  results (b_proc b') = results (b_proc b) ++ [r] ->
  exists s1 why, snap = Ok s1 /\ e = Ended why /\ b_overall b' = Change (Some s0) (Some s1) /\ b_bench b' = new_change.
Proof.
  intros b b' H. destruct (b_inv_history s0 l (new_bproc s0)) as [H1 H2]; [split; reflexivity|]. fold b in H1, H2.
  assert (N : forall p, (forall r', e <> Ended r') -> results p = results (b_proc b) -> b_proc b' = p -> False).
  { intros p He Hp E. rewrite E, Hp in H. apply (f_equal (@List.length _)) in H. rewrite app_length in H. cbn in H. lia. }
  destruct e as [|fd d|fd|why|].
  - exfalso. apply (N (fst (happens now Connected (b_proc b)))); [discriminate|apply happens_results; discriminate|]. unfold b'. cbn [b_happens]. now destruct (happens now Connected (b_proc b)).
  - exfalso. apply (N (fst (fst (bench_data now fd d (b_proc b))))); [discriminate| |].
    + unfold bench_data. destruct (fd =? 3)%N; [|apply (happens_results now (Data fd d)); discriminate]. destruct (on_mix _ _) as [p' a] eqn:E; injection E as <- _. now destruct a.
    + unfold b'. cbn [b_happens]. destruct (bench_data now fd d (b_proc b)) as [[p a] rs]. now destruct (timings snap rs (b_bench b)).
  - exfalso. apply (N (fst (happens now (Closed fd) (b_proc b)))); [discriminate|apply happens_results; discriminate|]. unfold b'. cbn [b_happens]. now destruct (happens now (Closed fd) (b_proc b)).
  - destruct snap as [s1|x].
    + exists s1, why. unfold b'. cbn [b_happens]. destruct (happens now (Ended why) (b_proc b)). rewrite H1. auto.
    + exfalso. unfold b' in H. cbn in H. apply (f_equal (@List.length _)) in H. rewrite app_length in H. cbn in H. lia.
  - exfalso. apply (N (fst (happens now Tick (b_proc b)))); [discriminate|apply happens_results; discriminate|]. reflexivity.
Qed.

Lemma success_error status o : (negb (status =? 0)%Z || negb (only_closed (stderr_of o)) = false) <-> went_well (Success status o).
Proof.
  rewrite orb_false_iff, !negb_false_iff, only_closed_ok, Z.eqb_eq. unfold went_well. split.
  - intros [-> H']. exists o. tauto.
  - intros (o' & [= -> ->] & H'). tauto.
Qed.

(** *** Names of disks *)

Lemma drop_spec s : exists ds, s = ds ++ drop_digits s /\ Forall (fun c => is_digit c = true) ds /\ (forall c t, drop_digits s = c :: t -> is_digit c = false).
Proof.
  induction s as [|c s (ds & E & D & N)]; [exists []; repeat split; [constructor|discriminate]|]. cbn [drop_digits]. destruct (is_digit c) eqn:Ec.
  - exists (c :: ds). split; [cbn; now rewrite <- E|]. split; [constructor; assumption|exact N].
  - exists []. split; [reflexivity|]. split; [constructor|]. intros c' t [= <- _]. exact Ec.
Qed.

Lemma disk_spec p : exists ds, p = disk_name p ++ ds /\ Forall (fun c => is_digit c = true) ds /\ forall d c, disk_name p = d ++ [c] -> is_digit c = false.
Proof.
  unfold disk_name. destruct (drop_spec (rev p)) as (ds & E & D & N). exists (rev ds). split; [|split].
  - rewrite <- rev_app_distr, <- E. now rewrite rev_involutive.
  - apply Forall_rev. exact D.
  - intros d c Hd. apply (N c (rev d)). apply (f_equal (@rev BinNums.N)) in Hd. rewrite rev_involutive, rev_app_distr in Hd. exact Hd.
Qed.

(** the only such part *)
Lemma disk_unique d ds : Forall (fun c => is_digit c = true) ds -> (forall d' c, d = d' ++ [c] -> is_digit c = false) -> disk_name (d ++ ds) = d.
Proof.
  intros D Hd. unfold disk_name. rewrite rev_app_distr. apply Forall_rev in D. remember (rev ds) as rs. clear Heqrs.
  induction D as [|c rs Hc D IH]; cbn [app drop_digits].
  - destruct (rev d) as [|c t] eqn:E; [cbn; apply (f_equal (@rev BinNums.N)) in E; rewrite rev_involutive in E; now symmetry|]. cbn [drop_digits].
    apply (f_equal (@rev BinNums.N)) in E. rewrite rev_involutive in E. cbn in E. rewrite (Hd _ _ E). rewrite E at 1. cbn. now symmetry.
  - rewrite Hc. exact IH.
Qed.

Lemma last_piece dir name : ~ In 47%N name -> partition_name (dir ++ lit "/" ++ name) = name.
Proof.
  intros H. unfold partition_name. change (lit "/") with slash. rewrite split_pieces, pieces_app, (pieces_word name H). apply last_last.
Qed.
