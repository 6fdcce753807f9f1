(** * C79, C80, C81, C107: benchmark.py *)

From Coq Require Import ZArith NArith String List Bool Lia.
From Verif Require Import Py PyStr PyInt PySplit Utf8 Structlike Delayed Benchmark.
Import ListNotations.
Open Scope nat_scope.

(** C79: whatever happens to the process, and when, whenFinished is fired as the
    history calls for: with the outcome of the first end, and once. *)
Theorem C79_once : forall l,
  results (history l new_proc) = match wanted_outcome l [] None false with Some o => [o] | None => [] end.
Proof. intros l. exact (history_outcome l _ _ new_ok). Qed.
Print Assumptions C79_once.

(** C79: the process is killed once for each period of 900 seconds without news, *)
Theorem C79_kills : forall l, signals (history l new_proc) = repeat (lit "KILL") (kills l None false).
Proof. intros l. exact (history_kills l _ _ _ new_ok). Qed.
Print Assumptions C79_kills.

(** and never after it has ended. *)
Theorem C79_dead : forall l now r l',
  Forall (fun x => ends (snd x) = false) l -> Forall (fun x => snd x <> Connected) l' ->
  signals (history (l ++ (now, Ended r) :: l') new_proc) = signals (history l new_proc).
Proof. exact no_late_kill. Qed.
Print Assumptions C79_dead.

(** C79: nothing is raised until the end; afterwards news and a second end are
    refused. *)
Theorem C79_raises : forall l, complaints l new_proc = wanted_complaints l false.
Proof. intros l. exact (history_complaints l _ _ _ new_ok). Qed.
Print Assumptions C79_raises.

Example C79_nonvacuous :
  let a := [(0, Connected); (5, Data 1%N (lit "hi")); (800, Tick); (850, Data 2%N (lit "x")); (1000, Tick); (1001, Closed 2%N); (1002, Ended (ProcessTerminated (Some 1) None 256))]%Z in
  let b := [(0, Connected); (5, Data 1%N (lit "hi")); (906, Tick); (907, Ended (ProcessTerminated None (Some 9) 9)); (950, Closed 1%N)]%Z in
  results (history a new_proc) = [Died (Some 1%Z) None 256 [(1%N, Some (lit "hi")); (2%N, Some (lit "x")); (2%N, None)]] /\ signals (history a new_proc) = [] /\
  results (history b new_proc) = [TimedOut] /\ signals (history b new_proc) = [lit "KILL"] /\ complaints b new_proc = [Done; Done; Done; Done; Raised AttributeError].
Proof. vm_compute. repeat split. Qed.

(** C80: the device of the deepest mount point that holds the directory *)
Definition C80_full : Prop := forall cwd lines tbl, Forall2 mount_line lines tbl -> (exists e, In e tbl /\ contains (snd e) cwd) ->
  exists dev, discoverCurrentWorkingDevice cwd lines = Ok dev /\ on_device tbl cwd dev.

(** false: mount points are compared as text *)
Theorem C80_textual_refuted : exists cwd lines tbl, Forall2 mount_line lines tbl /\ NoDup (map snd tbl) /\ (exists e, In e tbl /\ contains (snd e) cwd) /\
  (exists dev, discoverCurrentWorkingDevice cwd lines = Ok dev /\ ~ on_device tbl cwd dev) /\ ~ C80_full.
Proof.
  assert (W : exists cwd lines tbl, Forall2 mount_line lines tbl /\ NoDup (map snd tbl) /\ (exists e, In e tbl /\ contains (snd e) cwd) /\
    (exists dev, discoverCurrentWorkingDevice cwd lines = Ok dev /\ ~ on_device tbl cwd dev)).
  { exists (lit "/home2/x"), [lit "/dev/a / ext4"; lit "/dev/b /home"], [(lit "/dev/a", lit "/"); (lit "/dev/b", lit "/home")].
    split; [|split; [|split]].
    - constructor; [|constructor; [|constructor]].
      + exists [], [32%N], [([32%N], lit "ext4")], []. split; [reflexivity|]. repeat split; try discriminate; repeat constructor; discriminate.
      + exists [], [32%N], [], []. split; [reflexivity|]. repeat split; try discriminate; repeat constructor.
    - constructor; [intros [H|[]]; discriminate|constructor; [intros []|constructor]].
    - exists (lit "/dev/a", lit "/"). split; [now left|]. left. split; reflexivity.
    - exists (lit "/dev/b"). split; [reflexivity|]. intros (m & Hi & Hc & _). destruct Hi as [E|[E|[]]]; [discriminate E|]. injection E as <-.
      destruct Hc as [[E _]|[E|(r & E)]]; discriminate E. }
  destruct W as (cwd & lines & tbl & A & B & C & D). exists cwd, lines, tbl. split; [exact A|]. split; [exact B|]. split; [exact C|]. split; [exact D|].
  intros F. destruct (F _ _ _ A C) as (d & E1 & E2). destruct D as (d' & E1' & E2'). rewrite E1 in E1'. injection E1' as ->. contradiction.
Qed.
Print Assumptions C80_textual_refuted.

(** True when no mount point merely looks like one above the directory. *)
Theorem C80_deepest_partial : forall cwd lines tbl, Forall2 mount_line lines tbl ->
  (forall e, In e tbl -> prefixb (snd e) cwd = true -> contains (snd e) cwd) -> (exists e, In e tbl /\ contains (snd e) cwd) ->
  exists dev, discoverCurrentWorkingDevice cwd lines = Ok dev /\ on_device tbl cwd dev.
Proof. exact device_deepest. Qed.
Print Assumptions C80_deepest_partial.

(** That device is the only one if no mount point appears twice. *)
Theorem C80_unique : forall tbl cwd dev dev', NoDup (map snd tbl) -> on_device tbl cwd dev -> on_device tbl cwd dev' -> dev = dev'.
Proof. exact device_unique. Qed.
Print Assumptions C80_unique.

(** For all tables: the longest mount point the name of the directory begins with,
    and among several devices mounted there the one whose name is greatest. *)
Theorem C80_always_partial : forall cwd lines tbl, Forall2 mount_line lines tbl ->
  (forall e, In e tbl -> prefixb (snd e) cwd = false) /\ discoverCurrentWorkingDevice cwd lines = Ok (lit "<unknown>") \/
  exists dev m, discoverCurrentWorkingDevice cwd lines = Ok dev /\ In (dev, m) tbl /\ prefixb m cwd = true /\
    forall d' m', In (d', m') tbl -> prefixb m' cwd = true -> length m' < length m \/ m' = m /\ str_ltb dev d' = false.
Proof. exact device_text. Qed.
Print Assumptions C80_always_partial.

Example C80_nonvacuous :
  discoverCurrentWorkingDevice (lit "/home/x") [lit "/dev/a / ext4 rw"; lit "/dev/b /home ext4 rw"; lit "/dev/c /usr x"] = Ok (lit "/dev/b") /\
  discoverCurrentWorkingDevice (lit "/home/x") [lit "/dev/c /usr x"] = Ok (lit "<unknown>").
Proof. vm_compute. split; reflexivity. Qed.

(** the counters of a disk and of a partition, in the order in which Linux writes them *)
Definition disk_fields : list str :=
  [lit "readCount"; lit "mergedReadCount"; lit "readSectorCount"; lit "readMilliseconds"; lit "writeCount"; lit "mergedWriteCount";
   lit "writeSectorCount"; lit "writeMilliseconds"; lit "outstandingIOCount"; lit "ioMilliseconds"; lit "weightedIOMilliseconds"].
Definition partition_fields : list str := [lit "readCount"; lit "readSectorCount"; lit "writeCount"; lit "writeSectorCount"].

(** C81: a line of a disk: three words, eleven counters, perhaps more words (newer
    systems write more) and blanks between and around them *)
Theorem C81_disk : forall gaps major minor dev name ns extra tail, List.length gaps = 3 + List.length ns + List.length extra ->
  gaps_ok is_space_b gaps -> Forall (word is_space_b) (major :: minor :: dev :: extra) -> Forall (fun c => is_space_b c = true) tail ->
  utf8_encode name = Ok dev -> List.length ns = 11 ->
  parseDiskStatLine (spaced (stat_line gaps major minor dev ns extra) ++ tail) = Ok (name, Disk (combine disk_fields ns)).
Proof. exact parse_disk. Qed.
Print Assumptions C81_disk.

(** C81: a line of a partition has four counters. *)
Theorem C81_partition : forall gaps major minor dev name ns tail, List.length gaps = 3 + List.length ns ->
  gaps_ok is_space_b gaps -> Forall (word is_space_b) [major; minor; dev] -> Forall (fun c => is_space_b c = true) tail ->
  utf8_encode name = Ok dev -> List.length ns = 4 ->
  parseDiskStatLine (spaced (stat_line gaps major minor dev ns []) ++ tail) = Ok (name, Partition (combine partition_fields ns)).
Proof. exact parse_partition. Qed.
Print Assumptions C81_partition.

(** C81: no line with another number of counters is taken for either. *)
Theorem C81_other : forall gaps major minor dev ns tail, List.length gaps = 3 + List.length ns ->
  gaps_ok is_space_b gaps -> Forall (word is_space_b) [major; minor; dev] -> Forall (fun c => is_space_b c = true) tail ->
  (exists name, utf8_encode name = Ok dev) -> List.length ns <> 4 -> List.length ns < 11 ->
  parseDiskStatLine (spaced (stat_line gaps major minor dev ns []) ++ tail) = Err TypeError.
Proof. exact parse_other. Qed.
Print Assumptions C81_other.

(** C81: of several lines for a device, captureStats keeps the last. *)
Theorem C81_capture : forall lines d, captureStats lines = Ok d -> exists l, mapM parseDiskStatLine lines = Ok l /\
  forall k, dget d k = fold_left (fun a p => if eqb (fst p) k then Some (snd p) else a) l None.
Proof. exact capture_get. Qed.
Print Assumptions C81_capture.

Example C81_nonvacuous :
  parseDiskStatLine (lit "   8       0 sda 1 2 3 4 5 6 7 8 9 10 11 12 13") = Ok (lit "sda", Disk (combine disk_fields [1; 2; 3; 4; 5; 6; 7; 8; 9; 10; 11]%Z)) /\
  parseDiskStatLine (lit "8 1 sda1 10 20 30 40") = Ok (lit "sda1", Partition [(lit "readCount", 10%Z); (lit "readSectorCount", 20%Z); (lit "writeCount", 30%Z); (lit "writeSectorCount", 40%Z)]) /\
  parseDiskStatLine (lit "8 1 sda1 10 20 30") = Err TypeError /\ parseDiskStatLine (lit "8 1") = Err IndexError.
Proof. vm_compute. repeat split. Qed.

(** C107: a child asks for the timing to start with the byte 0, to stop with the
    byte 1; any other byte kills it. *)
Definition C107_full : Prop := forall b, back_byte b = (if (b =? 0)%N then StartTiming else if (b =? 1)%N then StopTiming else Quit).

(** false: under Python 3 every byte kills it. *)
Theorem C107_timing_refuted : back_byte 0 = Quit /\ ~ C107_full.
Proof. split; [reflexivity|]. intros H. discriminate (H 0%N). Qed.
Print Assumptions C107_timing_refuted.

(** True of the other bytes; one signal for each byte, nothing else. *)
Theorem C107_quit_partial : forall now b p p' a rs, bench_data now 3 b p = (p', a, rs) ->
  Forall (fun r => r = Quit) rs /\ (a = Done -> length rs = length b /\ signals p' = signals p ++ repeat (lit "QUIT") (length b)).
Proof. exact back_quits. Qed.
Print Assumptions C107_quit_partial.

(** Everything else a child writes is output as of any process. *)
Theorem C107_output : forall now fd b p, fd <> 3%N -> bench_data now fd b p = (Benchmark.happens now (Data fd b) p, []).
Proof. exact back_other. Qed.
Print Assumptions C107_output.

Example C107_nonvacuous : let x := bench_data 0 3 [0; 7]%N new_proc in
  snd x = [Quit; Quit] /\ snd (fst x) = Done /\ signals (fst (fst x)) = [lit "QUIT"; lit "QUIT"].
Proof. vm_compute. repeat split. Qed.
