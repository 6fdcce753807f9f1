(** * C108, C120, C121, C122: reports of benchmarks (epsilon/scripts/benchmark.py)

    [ulower] is [str.lower], [fminus] the subtraction of two times and [fstr] the
    [str] of such a number; [tells box ...] (BenchReport.v) says what is read in the
    box of a report. *)

From Coq Require Import ZArith NArith String List Bool Arith Lia.
From Verif Require Import Py PyStr PyNum PyInt Utf8 JuiceCodec JuiceStream JuiceArgs Delayed Benchmark BenchReport.
Import ListNotations.
Open Scope nat_scope.

Definition lowers (ulower : str -> str) : Prop := forall s, is_ascii s = true -> ulower s = map ascii_lower s.
Definition text_numbers (fstr : N -> str) : Prop := forall t, encodable (fstr t) = true.

(** ** C120 *)

(** A report is one box; what is read in it is what was measured. *)
Theorem C120_report : forall ulower fminus fstr, lowers ulower -> text_numbers fstr ->
  forall wd name sector before after error timeout, sane wd name -> comparable_snapshots before after ->
  exists w box, formatResults ulower fminus fstr wd name sector before after error timeout = Ok w /\ parseString ulower w = Ok [box] /\
    tells box wd name sector before after (fstr (fminus (s_time after) (s_time before))) error timeout.
Proof. intros ulower fminus fstr Hl Hf wd name sector before after error timeout. exact (format_tells ulower Hl fminus fstr Hf wd name sector before after error timeout). Qed.
Print Assumptions C120_report.

(** In all other cases there is no report: AttributeError. *)
Theorem C120_incomparable : forall ulower fminus fstr wd name sector before after error timeout, ~ comparable_snapshots before after ->
  formatResults ulower fminus fstr wd name sector before after error timeout = Err AttributeError.
Proof. exact format_error. Qed.
Print Assumptions C120_incomparable.

(** Two snapshots of the same devices can be compared if the partition found after
    was found before, and the disk found after is a disk and was found before. *)
Theorem C120_captured : forall t1 size1 lines1 t2 size2 lines2 disk partition before after,
  take t1 size1 lines1 disk partition = Ok before -> take t2 size2 lines2 disk partition = Ok after ->
  (s_partition before = None -> s_partition after = None) ->
  (forall s, s_disk after = Some s -> exists f g, s = Disk f /\ s_disk before = Some (Disk g)) ->
  comparable_snapshots before after.
Proof. exact take_comparable. Qed.
Print Assumptions C120_captured.

Definition ex_world : world := World (lit "box") (lit "50923248") (lit "20.3.0") (lit "0.7.1").
Definition ex_fminus (a b : N) : N := (a - b)%N.
Definition ex_fstr (t : N) : str := zdec (Z.of_N t).
Definition ex_before : list str := [lit " 8 0 sda 1 2 3 4 5 6 7 8 9 10 11"; lit " 8 1 sda1 1 2 3 4"].
Definition ex_after : list str := [lit " 8 0 sda 11 12 13 14 15 16 17 18 19 20 21"; lit " 8 1 sda1 5 7 9 11"].

Example C120_nonvacuous : exists before after w box,
  take 3 (Ok 12%Z) ex_before (lit "sda") (lit "sda1") = Ok before /\ take 7 (Ok 5%Z) ex_after (lit "sda") (lit "sda1") = Ok after /\
  sane ex_world (lit "b") /\ comparable_snapshots before after /\ text_numbers ex_fstr /\
  formatResults (map ascii_lower) ex_fminus ex_fstr ex_world (lit "b") 4096 before after false true = Ok w /\
  parseString (map ascii_lower) w = Ok [box] /\ dget box (lit "read_count") = Some (lit "4") /\ dget box (lit "write_ms") = Some (lit "10") /\
  dget box (lit "filesystem_growth") = Some (lit "-7") /\ dget box (lit "elapsed") = Some (lit "4") /\ dget box (lit "timeout") = Some (lit "True").
Proof.
  eexists _, _, _, _. split; [vm_compute; reflexivity|]. split; [vm_compute; reflexivity|]. split; [repeat split|]. split.
  - eapply C120_captured with (t1 := 3%N) (size1 := Ok 12%Z) (lines1 := ex_before) (t2 := 7%N) (size2 := Ok 5%Z) (lines2 := ex_after) (disk := lit "sda") (partition := lit "sda1");
      [vm_compute; reflexivity|vm_compute; reflexivity|discriminate|]. cbn [s_disk]. intros s [= <-]. eexists _, _. split; reflexivity.
  - split; [intros t; apply zdec_encodable|]. split; [vm_compute; reflexivity|]. split; [vm_compute; reflexivity|]. repeat split.
Qed.

(** a disk that appears in between *)
Example C120_nonvacuous_error : formatResults (map ascii_lower) ex_fminus ex_fstr ex_world (lit "b") 4096
  (Snapshot 0 None None 0) (Snapshot 1 (Some (Disk (combine diskstat_names (repeat 0%Z 11)))) None 0) false false = Err AttributeError.
Proof. vm_compute. reflexivity. Qed.

(** ** C121 *)

(** The file of reports, read whole, is the reports in the order they were made. *)
Theorem C121_file : forall ulower fminus fstr, lowers ulower -> text_numbers fstr -> forall rs : list run, Forall run_ok rs ->
  exists ws bs, mapM (run_format ulower fminus fstr) rs = Ok ws /\ parseString ulower (fold_left reportResults ws []) = Ok bs /\
    Forall2 (run_told fminus fstr) rs bs.
Proof. intros ulower fminus fstr Hl Hf. exact (file_told ulower Hl fminus fstr Hf). Qed.
Print Assumptions C121_file.

Example C121_nonvacuous : let s n := Snapshot n None None (Z.of_N n) in
  let rs := [(ex_world, lit "a-overall", 512%Z, s 1%N, s 4%N, false, false); (ex_world, lit "b", 512%Z, s 9%N, s 2%N, true, false)] in
  Forall run_ok rs /\
  match mapM (run_format (map ascii_lower) ex_fminus ex_fstr) rs with
  | Ok ws => match parseString (map ascii_lower) (fold_left reportResults ws []) with
             | Ok bs => map (fun b => dget b (lit "name")) bs = [Some (lit "a-overall"); Some (lit "b")] /\ map (fun b => dget b (lit "filesystem_growth")) bs = [Some (lit "3"); Some (lit "-7")]
             | Err _ => False
             end
  | Err _ => False
  end.
Proof. split; [repeat constructor|]. vm_compute. split; reflexivity. Qed.

(** ** C108 *)

(** Every run whose process has ended is reported, with error unless it went well
    and timeout if it timed out. *)
Definition C108_full : Prop := forall ulower fminus fstr wd sector name l s0 now s1 why out, lowers ulower -> text_numbers fstr ->
  let b := b_history l (new_bproc s0) in let b' := fst (b_happens now (Ok s1) (Ended why) b) in
  sane wd (name ++ lit "-overall") -> sane wd (name ++ lit "-benchmark") -> comparable_snapshots s0 s1 ->
  results (b_proc b) = [] -> results (b_proc b') = [out] ->
  exists w box, In w (fst (later ulower fminus fstr wd sector name (b_overall b') (b_bench b') out)) /\ parseString ulower w = Ok [box] /\
    (dget box (lit "error") = Some (lit "False") <-> went_well out) /\ (dget box (lit "timeout") = Some (lit "True") <-> out = TimedOut).

(** false: of runs which timed out or died nothing is reported *)
Theorem C108_unreported_refuted :
  (exists l, let b := b_history l (new_bproc (Snapshot 0 None None 0)) in
    let b' := fst (b_happens 1001 (Ok (Snapshot 0 None None 0)) (Ended (ProcessTerminated None (Some 9%Z) 9)) b) in
    results (b_proc b) = [] /\ results (b_proc b') = [TimedOut] /\
    forall ulower fminus fstr wd sector name, later ulower fminus fstr wd sector name (b_overall b') (b_bench b') TimedOut = ([], None)) /\
  ~ C108_full.
Proof.
  split.
  - exists [(0%Z, Err OSError, Connected); (1000%Z, Err OSError, Tick)]. repeat split.
  - intros H. destruct (H (map ascii_lower) ex_fminus ex_fstr ex_world 512%Z (lit "b") [(0%Z, Err OSError, Connected); (1000%Z, Err OSError, Tick)] (Snapshot 0 None None 0) 1001%Z (Snapshot 0 None None 0)
      (ProcessTerminated None (Some 9%Z) 9) TimedOut) as (w & box & [] & _); try (repeat split; fail); try reflexivity.
    intros t. apply zdec_encodable.
Qed.
Print Assumptions C108_unreported_refuted.

(** A run that ended by itself has one report, the overall one, right in error and
    timeout; the report of the part between START and STOP is never made (no byte
    is taken for START, C107), AttributeError is raised instead. *)
Theorem C108_reported_partial : forall ulower fminus fstr wd sector name l s0 now snap e status o, lowers ulower -> text_numbers fstr ->
  let b := b_history l (new_bproc s0) in let b' := fst (b_happens now snap e b) in
  results (b_proc b') = results (b_proc b) ++ [Success status o] ->
  exists s1, snap = Ok s1 /\
    (sane wd (name ++ lit "-overall") -> comparable_snapshots s0 s1 ->
     exists w box error, later ulower fminus fstr wd sector name (b_overall b') (b_bench b') (Success status o) = ([w], Some AttributeError) /\
       parseString ulower w = Ok [box] /\
       tells box wd (name ++ lit "-overall") sector s0 s1 (fstr (fminus (s_time s1) (s_time s0))) error false /\
       (error = false <-> went_well (Success status o))).
Proof.
  intros ulower fminus fstr wd sector name l s0 now snap e status o Hl Hf b b' H.
  destruct (b_finished l s0 now snap e (Success status o) H) as (s1 & why & -> & -> & Eo & Eb). fold b b' in Eo, Eb.
  exists s1. split; [reflexivity|]. intros Hs Hc. unfold later. rewrite Eo, Eb. cbn [report_all c_before c_after new_change].
  set (err := (negb (status =? 0)%Z || negb (only_closed (stderr_of o)))%bool).
  destruct (C120_report ulower fminus fstr Hl Hf wd (name ++ lit "-overall") sector s0 s1 err false Hs Hc) as (w & box & E & Ep & T).
  exists w, box, err. rewrite E. split; [reflexivity|]. split; [exact Ep|]. split; [exact T|]. apply success_error.
Qed.
Print Assumptions C108_reported_partial.

(** Were both parts measured, both would be reported, in the order and under the names
    given, and with the same error: the report is lost by what is not measured. *)
Theorem C108_measured : forall ulower fminus fstr wd sector name a b c d status o, lowers ulower -> text_numbers fstr ->
  sane wd (name ++ lit "-overall") -> sane wd (name ++ lit "-benchmark") -> comparable_snapshots a b -> comparable_snapshots c d ->
  exists w1 w2 box1 box2 error,
    later ulower fminus fstr wd sector name (Change (Some a) (Some b)) (Change (Some c) (Some d)) (Success status o) = ([w1; w2], None) /\
    parseString ulower w1 = Ok [box1] /\ parseString ulower w2 = Ok [box2] /\
    tells box1 wd (name ++ lit "-overall") sector a b (fstr (fminus (s_time b) (s_time a))) error false /\
    tells box2 wd (name ++ lit "-benchmark") sector c d (fstr (fminus (s_time d) (s_time c))) error false /\
    (error = false <-> went_well (Success status o)).
Proof.
  intros ulower fminus fstr wd sector name a b c d status o Hl Hf H1 H2 C1 C2. unfold later. cbn [report_all c_before c_after].
  set (err := (negb (status =? 0)%Z || negb (only_closed (stderr_of o)))%bool).
  destruct (C120_report ulower fminus fstr Hl Hf wd _ sector a b err false H1 C1) as (w1 & b1 & E1 & P1 & T1).
  destruct (C120_report ulower fminus fstr Hl Hf wd _ sector c d err false H2 C2) as (w2 & b2 & E2 & P2 & T2).
  exists w1, w2, b1, b2, err. rewrite E1, E2. repeat (split; [first [reflexivity|assumption]|]). apply success_error.
Qed.
Print Assumptions C108_measured.

(** What a start and a stop do to the measurement: each takes its snapshot, the last
    one counts, and neither touches that of the other. *)
Theorem C107_timings : forall snap rs c,
  timings snap rs c =
    match snap with
    | Ok s => (Change (if existsb (fun r => match r with StartTiming => true | _ => false end) rs then Some s else c_before c)
                      (if existsb (fun r => match r with StopTiming => true | _ => false end) rs then Some s else c_after c), Done)
    | Err e => (c, if existsb (fun r => match r with Quit => false | _ => true end) rs then Raised e else Done)
    end.
Proof.
  intros [s|e] rs.
  - induction rs as [|[] rs IH]; intros c; cbn [timings existsb orb]; [now destruct c|rewrite IH; cbn [c_before c_after]; repeat destruct (existsb _ rs); reflexivity..].
  - induction rs as [|[] rs IH]; intros c; cbn [timings existsb orb]; try reflexivity. now rewrite IH.
Qed.
Print Assumptions C107_timings.

Example C107_nonvacuous_timings : let s n := Snapshot n None None (Z.of_N n) in
  timings (Ok (s 5%N)) [StopTiming] (fst (timings (Ok (s 3%N)) [StartTiming; Quit; StartTiming] new_change)) = (Change (Some (s 3%N)) (Some (s 5%N)), Done).
Proof. reflexivity. Qed.

(** If no snapshot can be taken at the end, whenFinished is never fired, and so
    nothing is reported. *)
Theorem C108_unfinished : forall now x why b, b_happens now (Err x) (Ended why) b = (b, Raised x).
Proof. reflexivity. Qed.
Print Assumptions C108_unfinished.

Example C108_nonvacuous : let s n := Snapshot n None None (Z.of_N n) in
  let b := b_history [(0%Z, Err OSError, Connected); (1%Z, Err OSError, Data 1 (lit "x")); (2%Z, Err OSError, Closed 2)] (new_bproc (s 1%N)) in
  let b' := fst (b_happens 3 (Ok (s 4%N)) (Ended (ProcessDone 0)) b) in
  results (b_proc b) = [] /\ results (b_proc b') = [Success 0 [(1%N, Some (lit "x")); (2%N, None)]] /\
  went_well (Success 0 [(1%N, Some (lit "x")); (2%N, None)]) /\ sane ex_world (lit "b" ++ lit "-overall") /\ comparable_snapshots (s 1%N) (s 4%N).
Proof.
  split; [reflexivity|]. split; [reflexivity|]. split; [|split; [repeat split|split; exact Logic.I]].
  eexists. split; [reflexivity|]. split; [intros x [H|[H|[]]]; discriminate|reflexivity].
Qed.

(** ** C122 *)

(** the name Linux gives the partition [n] of a disk *)
Definition ends_in_digit (d : str) : bool := is_digit (last d 0%N).
Definition linux_partition (d : str) (n : N) : str := d ++ (if ends_in_digit d then lit "p" else []) ++ dec n.

(** The statistics reported as those of the disk are those of the disk which holds
    the working directory. *)
Definition C122_full : Prop := forall d n, d <> [] -> ~ In 47%N d -> disk_name (partition_name (lit "/dev/" ++ linux_partition d n)) = d.

(** false: the digits of a name belong to the disk if there is a p before the number
    of the partition *)
Theorem C122_disk_refuted :
  disk_name (partition_name (lit "/dev/" ++ linux_partition (lit "nvme0n1") 2)) = lit "nvme0n1p" /\ ~ C122_full.
Proof.
  assert (W : disk_name (partition_name (lit "/dev/" ++ linux_partition (lit "nvme0n1") 2)) = lit "nvme0n1p") by (vm_compute; reflexivity).
  split; [exact W|]. intros H. rewrite (H (lit "nvme0n1") 2%N) in W; [discriminate| |]; [discriminate|]. intros X. cbn in X. repeat destruct X as [X|X]; try discriminate. exact X.
Qed.
Print Assumptions C122_disk_refuted.

(** True of disks whose names do not end in a digit, used whole or in partitions. *)
Theorem C122_disk_partial : forall d n, d <> [] -> ~ In 47%N d -> ends_in_digit d = false ->
  disk_name (partition_name (lit "/dev/" ++ linux_partition d n)) = d /\ disk_name (partition_name (lit "/dev/" ++ d)) = d.
Proof.
  intros d n Hne Hs He.
  assert (L : forall d' c, d = d' ++ [c] -> is_digit c = false) by (intros d' c ->; unfold ends_in_digit in He; now rewrite last_last in He).
  assert (D : Forall (fun c => is_digit c = true) (dec n)) by (apply Forall_forall; intros c Hc; pose proof (dec_digits n) as A; unfold all_digits in A; rewrite forallb_forall in A; auto).
  unfold linux_partition. rewrite He. cbn [app]. split.
  - change (lit "/dev/" ++ d ++ dec n) with (lit "/dev" ++ lit "/" ++ (d ++ dec n)). rewrite last_piece; [now apply disk_unique|].
    intros H. apply in_app_or in H as [H|H]; [contradiction|]. rewrite Forall_forall in D. apply D in H. discriminate.
  - change (lit "/dev/" ++ d) with (lit "/dev" ++ lit "/" ++ d). rewrite last_piece by exact Hs. rewrite <- (app_nil_r d) at 1. now apply disk_unique.
Qed.
Print Assumptions C122_disk_partial.

(** In all cases: the last part of the path, and that without the digits at its end. *)
Theorem C122_always_partial : forall dir p, ~ In 47%N p -> partition_name (dir ++ lit "/" ++ p) = p /\
  exists ds, p = disk_name p ++ ds /\ Forall (fun c => is_digit c = true) ds /\ forall d c, disk_name p = d ++ [c] -> is_digit c = false.
Proof. intros dir p H. split; [now apply last_piece|apply disk_spec]. Qed.
Print Assumptions C122_always_partial.

Example C122_nonvacuous : disk_name (partition_name (lit "/dev/sda12")) = lit "sda" /\ partition_name (lit "/dev/mapper/root") = lit "root" /\ partition_name (lit "tmpfs") = lit "tmpfs".
Proof. vm_compute. repeat split. Qed.
