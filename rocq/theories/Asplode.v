(** * epsilon/asplode.py: unpacking a project from one stream of lines

    [file] and byte strings as in Python 2: Python 3 has no [file], and every
    header line raises NameError there. *)

From Coq Require Import NArith String List Bool Arith Lia.
From Verif Require Import Py PyStr PySplit PyInt FilePath.
Import ListNotations.
Open Scope nat_scope.
Open Scope list_scope.

Definition MARK : str := lit "###file:".

(** [str.replace] with a text [old] that is not empty *)
Definition replace (old new s : str) : str := join new (split old s).

(** what is done to the outside world: os.makedirs, file(name, 'wb'), a line on
    stderr, and writing to and closing the file opened under a name *)
Inductive effect := Makedirs (dir : str) | Open (name : str) | Status (text : str) | Write (name data : str) | Close (name : str).

Section Splode.
  Variable proj capproj : str.
  (** asplode.py:14: the date, when the n-th line is read *)
  Variable today : nat -> str.
  (** the exception that an effect raises after those done before *)
  Variable fails : list effect -> effect -> option exn.

  (** asplode.py:12-14 *)
  Definition subst (n : nat) (line : str) : str :=
    replace (lit "_date_") (today n) (replace (lit "_Project_") capproj (replace (lit "_project_") proj line)).

  (** an effect: those done so far, and what it raises *)
  Definition perform (e : effect) (tr : list effect) : list effect * option exn :=
    match fails tr e with Some x => (tr, Some x) | None => (tr ++ [e], None) end.

  (** effects one after the other *)
  Fixpoint performs (es : list effect) (tr : list effect) : list effect * option exn :=
    match es with
    | [] => (tr, None)
    | e :: es' => match perform e tr with (tr', None) => performs es' tr' | r => r end
    end.

  (** asplode.py:5-7, 11-27: one line; [current] is the name of the open file.
      The [except: pass] around makedirs: it may fail, and is recorded when
      it does not. *)
  Definition splode_line (n : nat) (line : str) (current : option str) (tr : list effect) : option str * (list effect * option exn) :=
    let ls := split MARK (subst n line) in
    match ls with
    | _ :: x :: _ =>
        let fname := strip is_space_b x in
        match performs (match current with Some c => [Close c] | None => [] end) tr with
        | (tr, Some x) => (current, (tr, Some x))
        | (tr, None) =>
            let tr := fst (perform (Makedirs (dirname fname)) tr) in
            match perform (Open fname) tr with
            | (tr, Some x) => (current, (tr, Some x))
            | (tr, None) => (Some fname, perform (Status (lit "Created: " ++ fname)) tr)
            end
        end
    | _ => match current with
           | None => (current, (tr, Some AttributeError))
           | Some c => (current, perform (Write c (subst n line)) tr)
           end
    end.

  Fixpoint splode_loop (n : nat) (lines : list str) (current : option str) (tr : list effect) : list effect * option exn :=
    match lines with
    | [] => match current with None => (tr, Some AttributeError) | Some c => perform (Close c) tr end
    | l :: t => match splode_line n l current tr with
                | (current, (tr, None)) => splode_loop (S n) t current tr
                | (_, r) => r
                end
    end.

  (** asplode.py:9-28 [splode] *)
  Definition splode (lines : list str) : list effect * option exn := splode_loop 0 lines None [].
End Splode.

(** ** Specification *)

(** [r] is [s] with every occurrence of [old], from the left and not
    overlapping, replaced by [new] *)
Inductive replaced (old new : str) : str -> str -> Prop :=
| replaced_none s : containsb old s = false -> replaced old new s s
| replaced_first a b b' : (forall i, i < length a -> ~ occurs_at old (a ++ old ++ b) i) -> replaced old new b b' ->
    replaced old new (a ++ old ++ b) (a ++ new ++ b').

(** the n-th line, as it is used *)
Definition instance (proj capproj : str) (today : nat -> str) (n : nat) (line text : str) : Prop :=
  exists a b, replaced (lit "_project_") proj line a /\ replaced (lit "_Project_") capproj a b /\ replaced (lit "_date_") (today n) b text.

(** [f] is [s] without the white space around it *)
Definition stripped (s f : str) : Prop :=
  exists a b, s = a ++ f ++ b /\ forallb is_space_b a = true /\ forallb is_space_b b = true /\
    match f with [] => True | c :: _ => is_space_b c = false /\ is_space_b (last f c) = false end.

(** a line that names the file [f]: the text after the first mark, up to the
    second if there is one *)
Definition header (text f : str) : Prop :=
  exists a x r, text = a ++ lit "###file:" ++ x ++ r /\ containsb (lit "###file:") a = false /\ containsb (lit "###file:") x = false /\
    (r = [] \/ exists t, r = lit "###file:" ++ t) /\ stripped x f.
Definition ordinary (text : str) : Prop := containsb (lit "###file:") text = false.

(** a header line, the file it names and the lines up to the next header *)
Definition section := (str * str * list str)%type.
Definition sec_ok (s : section) : Prop := header (fst (fst s)) (snd (fst s)) /\ Forall ordinary (snd s).
Definition sec_texts (s : section) : list str := fst (fst s) :: snd s.
Definition sec_file (s : section) : str := snd (fst s).
Definition sec_effects (s : section) : list effect :=
  Makedirs (dirname (sec_file s)) :: Open (sec_file s) :: Status (lit "Created: " ++ sec_file s) ::
  map (Write (sec_file s)) (snd s) ++ [Close (sec_file s)].

(** the files after some effects: opening empties a file, writing appends *)
Definition effect_on (files : dict str str) (e : effect) : dict str str :=
  match e with
  | Open f => dset files f []
  | Write f d => dset files f (match dget files f with Some c => c ++ d | None => d end)
  | _ => files
  end.
Definition files_after (files : dict str str) (tr : list effect) : dict str str := fold_left effect_on tr files.

(** a part of [l], in order *)
Inductive sublist {A} : list A -> list A -> Prop :=
| sub_nil : sublist [] []
| sub_keep x a b : sublist a b -> sublist (x :: a) (x :: b)
| sub_skip x a b : sublist a b -> sublist a (x :: b).

(** ** Lines *)

Lemma not_found p s : find p s = None -> containsb p s = false.
Proof. unfold containsb. now intros ->. Qed.

Lemma replace_replaced old new : old <> [] -> forall n s, length s <= n -> replaced old new s (replace old new s).
Proof.
  intros Ho. induction n as [|n IH]; intros s Hl.
  - destruct s; [|cbn in Hl; lia]. unfold replace. assert (E : find old [] = None) by (destruct old; [congruence|reflexivity]).
    rewrite (split_None _ _ E). apply replaced_none. now apply not_found.
  - unfold replace. destruct (find old s) as [i|] eqn:E.
    + rewrite (split_Some _ _ _ Ho E). pose proof (find_spec old s) as Hs. rewrite E in Hs. destruct Hs as [(a & b & -> & Hi) Hm].
      subst i. rewrite firstn_app, Nat.sub_diag, firstn_all. cbn [firstn]. rewrite app_nil_r.
      replace (skipn (length a + length old) (a ++ old ++ b)) with b
        by (rewrite app_assoc, <- app_length, skipn_app, skipn_all, Nat.sub_diag; reflexivity).
      assert (Hb : length b <= n) by (rewrite !app_length in Hl; destruct old; [congruence|cbn in Hl; lia]).
      destruct (split old b) as [|y l] eqn:Es; [destruct (join_split old Ho (length b) b (le_n _)); congruence|].
      change (join new (a :: y :: l)) with (a ++ new ++ join new (y :: l)). rewrite <- Es. apply replaced_first; [exact Hm|]. now apply IH.
    + rewrite (split_None _ _ E). apply replaced_none. now apply not_found.
Qed.

(** only one text is the outcome *)
Lemma replaced_unique old new : old <> [] -> forall s r, replaced old new s r -> r = replace old new s.
Proof.
  intros Ho s r H. induction H as [s H|a b b' Hm H IH].
  - unfold replace. rewrite split_None; [reflexivity|]. unfold containsb in H. destruct (find old s); congruence.
  - unfold replace. assert (E : find old (a ++ old ++ b) = Some (length a)).
    { pose proof (find_spec old (a ++ old ++ b)) as Hs. destruct (find old (a ++ old ++ b)) as [i|].
      - destruct Hs as [Hi Hj]. destruct (lt_eq_lt_dec i (length a)) as [[Hlt|Heq]|Hgt].
        + destruct (Hm i Hlt Hi).
        + now rewrite Heq.
        + destruct (Hj (length a) Hgt). exists a, b. auto.
      - destruct (Hs (length a)). exists a, b. auto. }
    rewrite (split_Some _ _ _ Ho E), firstn_app, Nat.sub_diag, firstn_all. cbn [firstn]. rewrite app_nil_r.
    replace (skipn (length a + length old) (a ++ old ++ b)) with b
      by (rewrite app_assoc, <- app_length, skipn_app, skipn_all, Nat.sub_diag; reflexivity).
    destruct (split old b) as [|y l] eqn:Es; [destruct (join_split old Ho (length b) b (le_n _)); congruence|].
    change (join new (a :: y :: l)) with (a ++ new ++ join new (y :: l)). rewrite <- Es. rewrite IH. reflexivity.
Qed.

Lemma subst_instance proj capproj today n line text :
  instance proj capproj today n line text <-> text = subst proj capproj today n line.
Proof.
  unfold subst. split.
  - intros (a & b & H1 & H2 & H3). apply replaced_unique in H1, H2, H3; try discriminate. now subst.
  - intros ->. do 2 eexists. repeat split; eapply replace_replaced; try discriminate; apply le_n.
Qed.

Lemma lstrip_split sp s : exists a, s = a ++ lstrip sp s /\ forallb sp a = true /\ match lstrip sp s with [] => True | c :: _ => sp c = false end.
Proof.
  induction s as [|c s IH]; [exists []; cbn; auto|]. destruct IH as (a & E & Ha & H). cbn [lstrip]. destruct (sp c) eqn:Ec.
  - exists (c :: a). cbn [app forallb]. rewrite <- E, Ec. auto.
  - exists []. auto.
Qed.

Lemma forallb_rev {A} (p : A -> bool) l : forallb p (rev l) = forallb p l.
Proof. induction l as [|x l IH]; [reflexivity|]. cbn [rev]. rewrite forallb_app, IH. cbn. now rewrite andb_true_r, andb_comm. Qed.

Lemma last_rev {A} (c d : A) t : last (rev (c :: t)) d = c.
Proof. cbn [rev]. apply last_last. Qed.

Lemma last_def {A} (l : list A) d d' : l <> [] -> last l d = last l d'.
Proof. induction l as [|x [|y l] IH]; intros H; [congruence|reflexivity|]. cbn [last] in *. apply IH. discriminate. Qed.

Lemma strip_stripped s : stripped s (strip is_space_b s).
Proof.
  unfold strip. destruct (lstrip_split is_space_b s) as (a & E & Ha & Hh). set (u := lstrip is_space_b s) in *.
  destruct (lstrip_split is_space_b (rev u)) as (b & Eb & Hb & Hl). set (v := lstrip is_space_b (rev u)) in *.
  assert (Eu : u = rev v ++ rev b) by (rewrite <- (rev_involutive u), Eb, rev_app_distr; reflexivity).
  exists a, (rev b). split; [now rewrite <- Eu|]. split; [exact Ha|]. split; [now rewrite forallb_rev|].
  destruct v as [|c v]; [exact I|]. destruct (rev (c :: v)) as [|x w] eqn:Ev; [exact I|]. rewrite Eu in Hh. cbn [app] in Hh.
  split; [exact Hh|]. rewrite <- Ev, last_rev. exact Hl.
Qed.

Lemma stripped_unique s f : stripped s f -> f = strip is_space_b s.
Proof.
  intros (a & b & -> & Ha & Hb & H).
  assert (L : forall x y, forallb is_space_b x = true -> match y with [] => True | c :: _ => is_space_b c = false end -> lstrip is_space_b (x ++ y) = y).
  { intros x y Hx Hy. induction x as [|c x IH]; cbn [app lstrip].
    - destruct y as [|c y]; [reflexivity|]. cbn [lstrip]. now rewrite Hy.
    - cbn [forallb] in Hx. apply andb_prop in Hx as [-> Hx]. auto. }
  unfold strip. destruct f as [|c f].
  - cbn [app]. assert (E : lstrip is_space_b (a ++ b) = []).
    { rewrite <- (app_nil_r (a ++ b)). apply L; [now rewrite forallb_app, Ha, Hb|exact I]. }
    rewrite E. reflexivity.
  - rewrite L; [|exact Ha|apply H]. rewrite rev_app_distr, L; [now rewrite rev_involutive|now rewrite forallb_rev|].
    destruct (rev (c :: f)) as [|x w] eqn:E; [exact I|]. destruct H as [_ H].
    rewrite <- (rev_involutive (c :: f)), E, last_rev in H. exact H.
Qed.

Lemma mark_ok : no_overlap MARK.
Proof. apply no_overlapb_spec. vm_compute. reflexivity. Qed.

Lemma mark_ne : MARK <> [].
Proof. discriminate. Qed.

Lemma ordinary_split text : ordinary text -> split MARK text = [text].
Proof. unfold ordinary, containsb. fold MARK. intros H. apply split_None. destruct (find MARK text); congruence. Qed.

Lemma split_mark a t : containsb MARK a = false -> split MARK (a ++ MARK ++ t) = a :: split MARK t.
Proof.
  intros Ha. rewrite (split_Some _ _ _ mark_ne (find_first MARK a _ mark_ok Ha)).
  rewrite firstn_app, Nat.sub_diag, firstn_all. cbn [firstn]. rewrite app_nil_r. f_equal. f_equal.
  rewrite app_assoc, <- app_length, skipn_app, skipn_all, Nat.sub_diag. reflexivity.
Qed.

Lemma header_split text f : header text f -> exists a x l, split MARK text = a :: x :: l /\ f = strip is_space_b x.
Proof.
  intros (a & x & r & -> & Ha & Hx & Hr & Hs). apply stripped_unique in Hs. subst f. rewrite split_mark by exact Ha.
  destruct Hr as [->|[t ->]].
  - rewrite app_nil_r, (ordinary_split x Hx). do 3 eexists. split; reflexivity.
  - rewrite split_mark by exact Hx. do 3 eexists. split; reflexivity.
Qed.

Lemma first_mark s : ordinary s \/ exists a b, s = a ++ MARK ++ b /\ containsb MARK a = false.
Proof.
  unfold ordinary, containsb. fold MARK. pose proof (find_spec MARK s) as H. destruct (find MARK s) as [i|] eqn:E; [|now left].
  right. destruct H as [(a & b & -> & Hi) Hm]. exists a, b. split; [reflexivity|]. subst i.
  pose proof (containsb_spec MARK a) as Hc. destruct (containsb MARK a) eqn:Ec; [|unfold containsb in Ec; destruct (find MARK a); congruence].
  exfalso. destruct (proj1 Hc eq_refl) as (u & v & ->). apply (Hm (length u)).
  - rewrite !app_length. cbn. lia.
  - exists u, (v ++ MARK ++ b). now rewrite <- !app_assoc.
Qed.

Lemma line_kind text : ordinary text \/ exists f, header text f.
Proof.
  destruct (first_mark text) as [H|(a & b & -> & Ha)]; [now left|]. right.
  destruct (first_mark b) as [H|(x & t & -> & Hx)].
  - exists (strip is_space_b b), a, b, []. rewrite app_nil_r. repeat split; auto. apply strip_stripped.
  - exists (strip is_space_b x), a, x, (MARK ++ t). repeat split; eauto. apply strip_stripped.
Qed.

Lemma ordinary_not_header text f : ordinary text -> header text f -> False.
Proof. intros H1 H2. apply ordinary_split in H1. apply header_split in H2 as (a & x & l & E & _). congruence. Qed.

(** any lines: none, or one before the first header, or sections *)
Lemma lines_kind texts : texts = [] \/ (exists t r, texts = t :: r /\ ordinary t) \/
  exists secs, secs <> [] /\ Forall sec_ok secs /\ texts = flat_map sec_texts secs.
Proof.
  assert (H : forall texts, exists body secs, texts = body ++ flat_map sec_texts secs /\ Forall ordinary body /\ Forall sec_ok secs).
  { clear texts. intros texts. induction texts as [|t r IH]; [exists [], []; cbn; auto|]. destruct IH as (body & secs & -> & Hb & Hs). destruct (line_kind t) as [Ht|[f Ht]].
    - exists (t :: body), secs. auto.
    - exists [], ((t, f, body) :: secs). split; [reflexivity|]. split; [constructor|]. constructor; [split; assumption|exact Hs]. }
  destruct (H texts) as (body & secs & -> & Hb & Hs). destruct body as [|t b].
  - destruct secs as [|s secs]; [now left|]. right. right. exists (s :: secs). split; [discriminate|]. auto.
  - right. left. inversion Hb; subst. cbn [app]. eauto.
Qed.

(** ** Effects *)

Section Effects.
  Variable proj capproj : str.
  Variable today : nat -> str.
  Variable fails : list effect -> effect -> option exn.
  Notation subst := (subst proj capproj today).
  Notation loop := (splode_loop proj capproj today fails).
  Notation line_ := (splode_line proj capproj today fails).

  (** the texts of the lines, the first of them being number [n] *)
  Fixpoint texts_from (n : nat) (lines : list str) : list str :=
    match lines with [] => [] | l :: t => subst n l :: texts_from (S n) t end.

  Definition is_makedirs (e : effect) : bool := match e with Makedirs _ => true | _ => false end.

  (** [tr'] came from [tr] by these effects, in order, without those Makedirs
      that fail; or one of the others failed, with the exception, and nothing
      was done after it *)
  Inductive does : list effect -> list effect -> list effect * option exn -> Prop :=
  | does_nil tr : does [] tr (tr, None)
  | does_one e es tr r : fails tr e = None -> does es (tr ++ [e]) r -> does (e :: es) tr r
  | does_skip e es tr r : is_makedirs e = true -> fails tr e <> None -> does es tr r -> does (e :: es) tr r
  | does_fail e es tr x : is_makedirs e = false -> fails tr e = Some x -> does (e :: es) tr (tr, Some x).

  Lemma perform_does e es tr r : is_makedirs e = false ->
    (forall tr', perform fails e tr = (tr', None) -> does es tr' r) -> (forall tr' x, perform fails e tr = (tr', Some x) -> r = (tr', Some x)) ->
    does (e :: es) tr r.
  Proof.
    intros Hm H1 H2. unfold perform in *. destruct (fails tr e) as [x|] eqn:E.
    - rewrite (H2 tr x eq_refl). now apply does_fail.
    - apply does_one; auto.
  Qed.

  Lemma body_does c : forall body n lines tr es, texts_from n lines = body ++ es -> Forall ordinary body ->
    forall rest, (forall m lines' tr', texts_from m lines' = es -> does rest tr' (loop m lines' (Some c) tr')) ->
    does (map (Write c) body ++ rest) tr (loop n lines (Some c) tr).
  Proof.
    induction body as [|t body IH]; intros n lines tr es E Hb rest H; cbn [map app] in *.
    - now apply H.
    - destruct lines as [|l lines]; [discriminate|]. cbn [texts_from] in E. injection E as Et E. inversion Hb as [|? ? Ho Hb']; subst.
      cbn [splode_loop]. unfold splode_line. rewrite (ordinary_split _ Ho).
      apply perform_does; [reflexivity| |].
      + intros tr' Ep. rewrite Ep. eapply IH; eauto.
      + intros tr' x Ep. rewrite Ep. reflexivity.
  Qed.

  Lemma sections_does : forall secs n lines tr current, texts_from n lines = flat_map sec_texts secs -> Forall sec_ok secs ->
    (current = None -> secs <> []) ->
    does (match current with Some c => [Close c] | None => [] end ++ flat_map sec_effects secs) tr (loop n lines current tr).
  Proof.
    induction secs as [|[[h f] body] secs IH]; intros n lines tr current E Hs Hc.
    - destruct current as [c|]; [|destruct (Hc eq_refl eq_refl)]. destruct lines; [|discriminate]. cbn [splode_loop flat_map app].
      apply perform_does; [reflexivity| |].
      + intros tr' Ep. rewrite Ep. constructor.
      + auto.
    - destruct lines as [|l lines]; [discriminate|]. cbn [flat_map sec_texts fst snd app] in E. cbn [texts_from] in E. injection E as Eh E.
      inversion Hs as [|? ? [Hh Hb] Hs']; subst. cbn [fst snd] in Hh, Hb. destruct (header_split _ _ Hh) as (a & x & r & Es & ->).
      cbn [splode_loop]. unfold splode_line. rewrite Es. set (f := strip is_space_b x) in *.
      assert (Main : forall tr, does (flat_map sec_effects ((subst n l, f, body) :: secs)) tr
        (let tr0 := fst (perform fails (Makedirs (dirname f)) tr) in
         match (match perform fails (Open f) tr0 with
                | (tr1, Some x) => (current, (tr1, Some x))
                | (tr1, None) => (Some f, perform fails (Status (lit "Created: " ++ f)) tr1)
                end) with
         | (current, (tr, None)) => loop (S n) lines current tr
         | (_, r) => r
         end)).
      { intros tr0. cbn zeta. cbn [flat_map sec_effects sec_file fst snd]. cbn [app].
        assert (Rest : forall tr1, does (Open f :: Status (lit "Created: " ++ f) :: (map (Write f) body ++ [Close f]) ++ flat_map sec_effects secs) tr1
          (match (match perform fails (Open f) tr1 with
                  | (tr1, Some x) => (current, (tr1, Some x))
                  | (tr1, None) => (Some f, perform fails (Status (lit "Created: " ++ f)) tr1)
                  end) with
           | (current, (tr, None)) => loop (S n) lines current tr
           | (_, r) => r
           end)).
        { intros tr1. apply perform_does; [reflexivity| |].
          - intros tr2 Eo. rewrite Eo. apply perform_does; [reflexivity| |].
            + intros tr3 Est. rewrite Est. rewrite <- app_assoc. eapply body_does; [exact E|exact Hb|].
              intros m lines' tr' E'. apply (IH m lines' tr' (Some f) E' Hs'). discriminate.
            + intros tr3 y Est. rewrite Est. reflexivity.
          - intros tr2 y Eo. rewrite Eo. reflexivity. }
        change (does (Makedirs (dirname f) :: Open f :: Status (lit "Created: " ++ f) :: (map (Write f) body ++ [Close f]) ++ flat_map sec_effects secs) tr0
          (match (match perform fails (Open f) (fst (perform fails (Makedirs (dirname f)) tr0)) with
                  | (tr1, Some x) => (current, (tr1, Some x))
                  | (tr1, None) => (Some f, perform fails (Status (lit "Created: " ++ f)) tr1)
                  end) with
           | (current, (tr, None)) => loop (S n) lines current tr
           | (_, r) => r
           end)).
        destruct (fails tr0 (Makedirs (dirname f))) as [y|] eqn:Em.
        - replace (fst (perform fails (Makedirs (dirname f)) tr0)) with tr0 by (unfold perform; now rewrite Em).
          apply does_skip; [reflexivity|congruence|apply Rest].
        - replace (fst (perform fails (Makedirs (dirname f)) tr0)) with (tr0 ++ [Makedirs (dirname f)]) by (unfold perform; now rewrite Em).
          apply does_one; [exact Em|apply Rest]. }
      destruct current as [c|]; cbn [performs app].
      + apply perform_does; [reflexivity| |].
        * intros tr' Ep. rewrite Ep. apply Main.
        * intros tr' y Ep. rewrite Ep. reflexivity.
      + apply Main.
  Qed.

  Theorem splode_sections lines secs : texts_from 0 lines = flat_map sec_texts secs -> Forall sec_ok secs -> secs <> [] ->
    does (flat_map sec_effects secs) [] (splode proj capproj today fails lines).
  Proof. intros E Hs Hn. apply (sections_does secs 0 lines [] None E Hs). auto. Qed.

  Theorem splode_stray lines : (forall t r, texts_from 0 lines = t :: r -> ordinary t) ->
    splode proj capproj today fails lines = ([], Some AttributeError).
  Proof.
    intros H. unfold splode. destruct lines as [|l lines]; [reflexivity|]. cbn [splode_loop]. unfold splode_line.
    rewrite (ordinary_split _ (H _ _ eq_refl)). reflexivity.
  Qed.
End Effects.

(** ** Files *)

Lemma does_files fails es tr r : does fails es tr r ->
  (forall tr e, is_makedirs e = false -> fails tr e = None) ->
  snd r = None /\ forall files, files_after files (fst r) = files_after (files_after files tr) es.
Proof.
  intros H Hf. induction H as [tr|e es tr r E H IH|e es tr r Hm E H IH|e es tr x Hm E].
  - split; reflexivity.
  - destruct IH as [H1 H2]. split; [exact H1|]. intros files. rewrite H2. unfold files_after. now rewrite fold_left_app.
  - destruct IH as [H1 H2]. split; [exact H1|]. intros files. rewrite H2. unfold files_after at 3. cbn [fold_left].
    destruct e; try discriminate. reflexivity.
  - rewrite Hf in E by exact Hm. discriminate.
Qed.

Lemma writes_files f : forall body files c, dget files f = Some c ->
  (dget (files_after files (map (Write f) body)) f = Some (c ++ concat body)) /\
  forall g, g <> f -> dget (files_after files (map (Write f) body)) g = dget files g.
Proof.
  induction body as [|d body IH]; intros files c E; cbn [map concat].
  - unfold files_after. cbn [fold_left]. rewrite app_nil_r. auto.
  - unfold files_after. cbn [fold_left effect_on]. rewrite E.
    destruct (IH (dset files f (c ++ d)) (c ++ d)) as [H1 H2]; [apply dget_dset_eq|]. unfold files_after in *. split.
    + rewrite H1. now rewrite app_assoc.
    + intros g Hg. rewrite H2 by exact Hg. now apply dget_dset_neq.
Qed.

(** what the sections leave in a file: the lines of the last section that
    names it *)
Fixpoint last_body (f : str) (secs : list section) : option str :=
  match secs with
  | [] => None
  | s :: t => match last_body f t with
              | Some b => Some b
              | None => if eqb (sec_file s) f then Some (concat (snd s)) else None
              end
  end.

Lemma sections_files : forall secs files f,
  dget (files_after files (flat_map sec_effects secs)) f = match last_body f secs with Some b => Some b | None => dget files f end.
Proof.
  induction secs as [|[[h g] body] secs IH]; intros files f; [reflexivity|].
  cbn [flat_map]. unfold files_after. rewrite fold_left_app. fold (files_after files (sec_effects (h, g, body))).
  fold (files_after (files_after files (sec_effects (h, g, body))) (flat_map sec_effects secs)).
  rewrite IH. cbn [last_body]. destruct (last_body f secs); [reflexivity|]. cbn [sec_file fst snd].
  unfold sec_effects, sec_file. cbn [fst snd]. unfold files_after. cbn [fold_left effect_on]. rewrite fold_left_app. cbn [fold_left effect_on].
  destruct (writes_files g body (dset files g []) [] (dget_dset_eq _ _ _)) as [H1 H2]. unfold files_after in *.
  destruct (eqb_spec g f) as [->|Hn]; [exact H1|]. rewrite H2 by congruence. apply dget_dset_neq. congruence.
Qed.

Lemma last_body_none f secs : (forall s, In s secs -> sec_file s <> f) -> last_body f secs = None.
Proof.
  induction secs as [|s secs IH]; intros H; [reflexivity|]. cbn [last_body]. rewrite IH by (intros s' Hs; apply H; now right).
  destruct (eqb_spec (sec_file s) f) as [E|E]; [destruct (H s (or_introl eq_refl) E)|reflexivity].
Qed.

Lemma last_body_last f l s r : sec_file s = f -> (forall s', In s' r -> sec_file s' <> f) -> last_body f (l ++ s :: r) = Some (concat (snd s)).
Proof.
  intros Hs Hr. induction l as [|u l IH]; cbn [app last_body].
  - rewrite (last_body_none f r Hr). destruct (eqb_spec (sec_file s) f); [reflexivity|congruence].
  - now rewrite IH.
Qed.

(** the texts of the lines *)
Definition texts_of (proj capproj : str) (today : nat -> str) (lines texts : list str) : Prop :=
  length texts = length lines /\
  forall n l t, nth_error lines n = Some l -> nth_error texts n = Some t -> instance proj capproj today n l t.

Lemma texts_from_of proj capproj today lines texts : texts_of proj capproj today lines texts <-> texts = texts_from proj capproj today 0 lines.
Proof.
  assert (H : forall lines texts n, (length texts = length lines /\
    forall m l t, nth_error lines m = Some l -> nth_error texts m = Some t -> t = subst proj capproj today (n + m) l) <->
    texts = texts_from proj capproj today n lines).
  { clear. induction lines as [|l lines IH]; intros texts n; cbn [texts_from].
    - split; [intros [H _]; destruct texts; [reflexivity|discriminate]|]. intros ->. split; [reflexivity|]. intros m l t E. destruct m; discriminate.
    - split.
      + intros [Hl H]. destruct texts as [|t texts]; [discriminate|]. f_equal.
        * rewrite (H 0 l t eq_refl eq_refl). now rewrite Nat.add_0_r.
        * apply IH. split; [cbn in Hl; lia|]. intros m l' t' E1 E2. rewrite (H (S m) l' t' E1 E2). now rewrite Nat.add_succ_r.
      + intros ->. destruct (proj2 (IH (texts_from proj capproj today (S n) lines) (S n)) eq_refl) as [H1 H2].
        split; [cbn; lia|]. intros [|m] l' t' E1 E2; cbn in E1, E2.
        * injection E1 as ->. injection E2 as <-. now rewrite Nat.add_0_r.
        * rewrite (H2 m l' t' E1 E2). now rewrite Nat.add_succ_r. }
  rewrite <- H. unfold texts_of. split; intros [Hl Hi]; (split; [exact Hl|]); intros m l t E1 E2.
  - now apply subst_instance, Hi.
  - apply subst_instance. exact (Hi m l t E1 E2).
Qed.
