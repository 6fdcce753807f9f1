(** * FilePath.globChildren of epsilon/hotfixes/filepath_copyTo.py

    Over the file systems of FileTree.v, with glob.glob and fnmatch of the standard
    library.  Errors of the operating system are not modelled here: glob takes a
    directory it cannot read for an empty one. *)

From Coq Require Import NArith String List Bool Arith Lia ZifyBool.
From Verif Require Import Py PyStr PySplit FilePath FileTree FileTreeMore FileMake.
Import ListNotations.
Open Scope list_scope.

(** ** fnmatch *)

Section Glob.
  (** which characters the text between brackets stands for (fnmatch.translate:
      ranges, '!'); nothing is assumed of it *)
  Variable in_set : str -> N -> bool.

  Inductive tok := TStar | TAny | TLit (c : N) | TSet (stuff : str).

  Fixpoint upto_bracket (p : str) : option (str * str) :=
    match p with
    | [] => None
    | c :: p' => if (c =? 93)%N then Some ([], p') else match upto_bracket p' with Some (a, b) => Some (c :: a, b) | None => None end
    end.
  (** what is between '[' and the ']' that closes it, which is not the first
      character (after '!'); None: the '[' stands for itself *)
  Definition bracket (p : str) : option (str * str) :=
    let '(bang, q) := match p with c :: q => if (c =? 33)%N then ([c], q) else ([], p) | [] => ([], p) end in
    let '(close, q) := match q with c :: q' => if (c =? 93)%N then ([c], q') else ([], q) | [] => ([], q) end in
    match upto_bracket q with Some (a, b) => Some (bang ++ close ++ a, b) | None => None end.

  (** fnmatch.translate; [fuel] is the length of the pattern *)
  Fixpoint tokens (fuel : nat) (p : str) : list tok :=
    match fuel, p with
    | S fuel', c :: p' =>
        if (c =? 42)%N then TStar :: tokens fuel' p'
        else if (c =? 63)%N then TAny :: tokens fuel' p'
        else if (c =? 91)%N then match bracket p' with
                                 | Some (stuff, rest) => TSet stuff :: tokens fuel' rest
                                 | None => TLit c :: tokens fuel' p'
                                 end
        else TLit c :: tokens fuel' p'
    | _, _ => []
    end.

  Fixpoint match_toks (l : list tok) (s : str) : bool :=
    match l with
    | [] => match s with [] => true | _ => false end
    | TStar :: l' => (fix skip (s : str) : bool := match_toks l' s || match s with [] => false | _ :: s' => skip s' end) s
    | TAny :: l' => match s with _ :: s' => match_toks l' s' | [] => false end
    | TLit c :: l' => match s with d :: s' => (c =? d)%N && match_toks l' s' | [] => false end
    | TSet x :: l' => match s with d :: s' => in_set x d && match_toks l' s' | [] => false end
    end.
  Definition fnmatch (pattern s : str) : bool := match_toks (tokens (length pattern) pattern) s.

  (** ** glob.glob *)

  Definition is_magic (c : N) : bool := (c =? 42)%N || (c =? 63)%N || (c =? 91)%N.
  Definition has_magic (s : str) : bool := existsb is_magic s.
  Definition hidden (s : str) : bool := prefixb (lit ".") s.
  Definition isdir (f : fs) (path : str) : bool := match dget f (place path) with Some EDir => true | _ => false end.
  Definition lexists (f : fs) (path : str) : bool := match dget f (place path) with Some _ => true | None => false end.

  (** glob._glob1 and glob._glob0 *)
  Definition glob1 (f : fs) (dir pattern : str) (dironly : bool) : list str :=
    if isdir f dir then
      filter (fun c => (hidden pattern || negb (hidden c)) && fnmatch pattern c)
             (filter (fun c => negb dironly || isdir f (joinpath dir c)) (names f (place dir)))
    else [].
  Definition glob0 (f : fs) (dir base : str) : list str :=
    match base with
    | [] => if isdir f dir then [base] else []
    | _ => if lexists f (joinpath dir base) then [base] else []
    end.

  (** glob._iglob, not recursive, for a path that begins with a slash *)
  Fixpoint iglob (fuel : nat) (f : fs) (path : str) (dironly : bool) : list str :=
    match fuel with
    | O => []
    | S fuel' =>
        let dir := dirname path in
        let base := basename path in
        if negb (has_magic path) then
          match base with
          | [] => if isdir f dir then [path] else []
          | _ => if lexists f path then [path] else []
          end
        else
          let dirs := if negb (eqb dir path) && has_magic dir then iglob fuel' f dir true else [dir] in
          flat_map (fun d => map (joinpath d) (if has_magic base then glob1 f d base dironly else glob0 f d base)) dirs
    end.
  Definition glob (f : fs) (path : str) : list str := iglob (S (length path)) f path false.

  (** filepath_copyTo.py:262-270.  Under Python 3 the result is an iterator over
      these, not a list. *)
  Definition globChildren (cwd : str) (f : fs) (self pattern : str) : list str :=
    let path := if suffixb slash self then self ++ pattern else join slash [self; pattern] in
    map (filePath cwd) (glob f path).

  (** ** Specification of fnmatch *)
  Inductive matches : list tok -> str -> Prop :=
  | m_nil : matches [] []
  | m_star l a b : matches l b -> matches (TStar :: l) (a ++ b)
  | m_any l c s : matches l s -> matches (TAny :: l) (c :: s)
  | m_lit l c s : matches l s -> matches (TLit c :: l) (c :: s)
  | m_set l x c s : in_set x c = true -> matches l s -> matches (TSet x :: l) (c :: s).

  Lemma match_iff l : forall s, match_toks l s = true <-> matches l s.
  Proof.
    induction l as [|t l IH]; intros s.
    - destruct s; cbn; split; intros H; try constructor; try discriminate. inversion H.
    - destruct t as [| |c|x]; cbn [match_toks].
      + split.
        * intros H. enough (exists a b, s = a ++ b /\ matches l b) as (a & b & -> & Hb) by now constructor.
          induction s as [|c s IHs]; apply orb_prop in H as [H|H]; try discriminate; try (exists [], []; split; [reflexivity|now apply IH]); [exists [], (c :: s); split; [reflexivity|now apply IH]|].
          destruct (IHs H) as (a & b & -> & Hb). now exists (c :: a), b.
        * intros H. inversion H as [|? a b Hb| | |]; subst. clear H. apply IH in Hb. induction a as [|c a IHa]; cbn [app].
          -- destruct b; cbn in *; now rewrite Hb.
          -- cbn. rewrite IHa. apply orb_true_r.
      + destruct s as [|c s]; [split; [discriminate|intros H; inversion H]|]. rewrite IH. split; [now constructor|intros H; now inversion H].
      + destruct s as [|d s]; [split; [discriminate|intros H; inversion H]|]. rewrite andb_true_iff, IH, N.eqb_eq. split; [intros [-> H]; now constructor|intros H; inversion H; auto].
      + destruct s as [|d s]; [split; [discriminate|intros H; inversion H]|]. rewrite andb_true_iff, IH. split; [intros [E H]; now constructor|intros H; inversion H; auto].
  Qed.

  Lemma plain_tokens p : has_magic p = false -> forall fuel, (length p <= fuel)%nat -> tokens fuel p = map TLit p.
  Proof.
    induction p as [|c p IH]; intros H fuel L; [destruct fuel; reflexivity|]. destruct fuel as [|fuel]; [cbn in L; lia|]. cbn [has_magic existsb] in H.
    apply orb_false_iff in H as [H1 H2]. unfold is_magic in H1. apply orb_false_iff in H1 as [H1 H3]. apply orb_false_iff in H1 as [H0 H1]. cbn [tokens map]. rewrite H0, H1, H3. f_equal. apply IH; [exact H2|cbn in L; lia].
  Qed.
  Lemma plain_match p s : has_magic p = false -> fnmatch p s = true <-> s = p.
  Proof.
    intros H. unfold fnmatch. rewrite plain_tokens by (auto; lia). rewrite match_iff. clear H. revert s. induction p as [|c p IH]; intros s; cbn [map].
    - split; [intros H; now inversion H|intros ->; constructor].
    - split; [intros H; inversion H; subst; f_equal; now apply IH|intros ->; constructor; now apply IH].
  Qed.

  Lemma tokens_app p q : has_magic p = false -> forall fuel, (length p <= fuel)%nat -> tokens fuel (p ++ q) = map TLit p ++ tokens (fuel - length p) q.
  Proof.
    induction p as [|c p IH]; intros H fuel L; [cbn; now rewrite Nat.sub_0_r|]. destruct fuel as [|fuel]; [cbn in L; lia|]. cbn [has_magic existsb] in H.
    apply orb_false_iff in H as [H1 H2]. unfold is_magic in H1. apply orb_false_iff in H1 as [H1 H3]. apply orb_false_iff in H1 as [H0 H1]. cbn [tokens map app length Nat.sub]. rewrite H0, H1, H3. f_equal. apply IH; [exact H2|cbn in L; lia].
  Qed.
  Lemma matches_lits p l : forall s, matches (map TLit p ++ l) s <-> exists t, s = p ++ t /\ matches l t.
  Proof.
    induction p as [|c p IH]; intros s; cbn [map app].
    - split; [intros H; now exists s|intros (t & -> & H); exact H].
    - split.
      + intros H. inversion H as [| | |? ? s' H'|]; subst. apply IH in H' as (t & -> & H'). now exists t.
      + intros (t & -> & H). constructor. apply IH. now exists t.
  Qed.
  Lemma lits_matches p s : matches (map TLit p) s <-> s = p.
  Proof.
    rewrite <- (app_nil_r (map TLit p)), matches_lits. split; [intros (t & -> & H); inversion H; apply app_nil_r|intros ->; exists []; split; [now rewrite app_nil_r|constructor]].
  Qed.
  Lemma star_match pre post s : has_magic pre = false -> has_magic post = false -> fnmatch (pre ++ lit "*" ++ post) s = true <-> exists m, s = pre ++ m ++ post.
  Proof.
    intros H1 H2. unfold fnmatch. rewrite (tokens_app pre _ H1) by (rewrite app_length; lia). rewrite app_length. replace (length pre + length (lit "*" ++ post) - length pre)%nat with (S (length post)) by (cbn; lia).
    change (lit "*" ++ post) with (42%N :: post). cbn [tokens]. change (42 =? 42)%N with true. cbv iota. rewrite plain_tokens by (auto; lia). rewrite match_iff, matches_lits. split.
    - intros (t & -> & H). inversion H as [|? a b Hb| | |]; subst. apply lits_matches in Hb as ->. now exists a.
    - intros (m & ->). exists (m ++ post). split; [reflexivity|]. constructor. now apply lits_matches.
  Qed.
  Lemma any_match pre post s : has_magic pre = false -> has_magic post = false -> fnmatch (pre ++ lit "?" ++ post) s = true <-> exists c, s = pre ++ [c] ++ post.
  Proof.
    intros H1 H2. unfold fnmatch. rewrite (tokens_app pre _ H1) by (rewrite app_length; lia). rewrite app_length. replace (length pre + length (lit "?" ++ post) - length pre)%nat with (S (length post)) by (cbn; lia).
    change (lit "?" ++ post) with (63%N :: post). cbn [tokens]. change (63 =? 42)%N with false. change (63 =? 63)%N with true. cbv iota. rewrite plain_tokens by (auto; lia). rewrite match_iff, matches_lits. split.
    - intros (t & -> & H). inversion H as [| |? c b Hb| |]; subst. apply lits_matches in Hb as ->. now exists c.
    - intros (m & ->). exists (m :: post). split; [reflexivity|]. constructor. now apply lits_matches.
  Qed.

  (** ** globChildren *)

  Definition with_slash (n : nat) (p : loc) (pattern : str) : str := if suffixb slash (render n p) then render n p ++ pattern else join slash [render n p; pattern].

  Lemma split_pattern n (p : loc) pattern : absolute n p -> ~ In 47%N pattern ->
    basename (with_slash n p pattern) = pattern /\ dirname (with_slash n p pattern) = render n p.
  Proof.
    intros Ha Hp. destruct p as [|d p].
    - destruct Ha as [[->| ->] _].
      + assert (E : with_slash 1 [] pattern = [] ++ 47%N :: pattern) by reflexivity. unfold basename, dirname. rewrite E, (psplit_app [] pattern Hp). split; reflexivity.
      + assert (E : with_slash 2 [] pattern = [47%N] ++ 47%N :: pattern) by reflexivity. unfold basename, dirname. rewrite E, (psplit_app [47%N] pattern Hp). split; reflexivity.
    - unfold with_slash. pose proof (render_end n (d :: p) Ha ltac:(discriminate)) as He. rewrite He. unfold basename, dirname.
      change (join slash [render n (d :: p); pattern]) with (render n (d :: p) ++ 47%N :: pattern). rewrite (psplit_app _ pattern Hp). cbn [fst snd]. split; [reflexivity|].
      assert (Hne : render n (d :: p) <> []) by (intros E; pose proof (abs_slash _ _ Ha) as F; rewrite E in F; discriminate F).
      destruct (exists_last Hne) as (u & x & Eu). rewrite Eu in He |- *. assert (Hx : is_slash x = false).
      { unfold is_slash. destruct (N.eqb_spec x 47) as [->|]; [|reflexivity]. exfalso. apply Bool.not_true_iff_false in He. apply He. apply suffixb_spec. exists u. reflexivity. }
      replace (forallb is_slash ((u ++ [x]) ++ [47%N])) with false by (symmetry; rewrite !forallb_app; cbn [forallb]; rewrite Hx; now rewrite andb_false_r).
      rewrite rev_app_distr, rev_app_distr. cbn [rev app lstrip_slash]. change (is_slash 47) with true. cbv iota. rewrite Hx. cbn [rev]. now rewrite rev_involutive.
  Qed.

  Lemma magic_app a b : has_magic (a ++ b) = has_magic a || has_magic b.
  Proof. apply existsb_app. Qed.
  Lemma magic_pattern n (p : loc) pattern : has_magic (with_slash n p pattern) = has_magic (render n p) || has_magic pattern.
  Proof. unfold with_slash. destruct (suffixb slash (render n p)); [apply magic_app|]. change (join slash [render n p; pattern]) with (render n p ++ slash ++ pattern). rewrite !magic_app. reflexivity. Qed.

  Lemma name_free c : name c -> prefixb slash c = false.
  Proof. intros (H1 & _ & _ & H). destruct (prefixb slash c) eqn:E; [|reflexivity]. apply prefixb_spec in E as (t & ->). exfalso. apply H. now left. Qed.
  Lemma join_child n (p : loc) c : absolute n p -> name c -> joinpath (render n p) c = render n (p ++ [c]).
  Proof.
    intros Ha Hc. unfold joinpath. rewrite (name_free c Hc). assert (Hne : render n p <> []) by (intros E; pose proof (abs_slash _ _ Ha) as F; rewrite E in F; discriminate F).
    destruct (render n p) as [|x r] eqn:Er; [congruence|]. rewrite <- Er. destruct p as [|d p].
    - destruct Ha as [[->| ->] _]; reflexivity.
    - rewrite (render_end n (d :: p) Ha ltac:(discriminate)). unfold render. rewrite join_snoc by discriminate. now rewrite <- !app_assoc.
  Qed.
  Lemma absolute_snoc n (p : loc) c : absolute n p -> name c -> absolute n (p ++ [c]).
  Proof. intros [H1 H2] Hc. split; [exact H1|]. apply Forall_app. split; [exact H2|now constructor]. Qed.
  Lemma with_child n (p : loc) c : absolute n p -> name c -> with_slash n p c = render n (p ++ [c]).
  Proof.
    intros Ha Hc. rewrite <- join_child by auto. unfold with_slash, joinpath. rewrite (name_free c Hc). assert (Hne : render n p <> []) by (intros E; pose proof (abs_slash _ _ Ha) as F; rewrite E in F; discriminate F).
    destruct (render n p) as [|x r] eqn:Er; [congruence|]. reflexivity.
  Qed.

  Lemma names_name f (p : loc) c : okfs f -> In c (names f p) -> name c.
  Proof.
    intros Hf Hi. apply (names_spec f p c (ok_keys f Hf)) in Hi. destruct (dget f (p ++ [c])) as [e|] eqn:E; [|congruence].
    apply (ok_names f Hf) in E. apply Forall_app in E as [_ E]. now inversion E.
  Qed.

  Theorem glob_children cwd f n (p : loc) (pattern : str) : okfs f -> absolute n p -> has_magic (render n p) = false -> dget f p = Some EDir -> ~ In 47%N pattern ->
    has_magic pattern = true \/ name pattern ->
    NoDup (globChildren cwd f (render n p) pattern) /\
    forall q, In q (globChildren cwd f (render n p) pattern) <->
      exists c, q = render n (p ++ [c]) /\ dget f (p ++ [c]) <> None /\ fnmatch pattern c = true /\ (hidden c = true -> hidden pattern = true).
  Proof.
    intros Hf Ha Hm Hd Hs Hp. change (globChildren cwd f (render n p) pattern) with (map (filePath cwd) (glob f (with_slash n p pattern))). unfold glob. cbn [iglob].
    destruct (split_pattern n p pattern Ha Hs) as [-> ->]. rewrite magic_pattern, Hm. cbn [orb]. rewrite andb_false_r.
    destruct (has_magic pattern) eqn:Ep; cbn [negb].
    - cbn [flat_map]. rewrite app_nil_r. unfold glob1, isdir. rewrite (place_render n p Ha), Hd.
      set (L := filter _ (filter _ _)).
      assert (EL : forall c, In c L <-> dget f (p ++ [c]) <> None /\ fnmatch pattern c = true /\ (hidden c = true -> hidden pattern = true)).
      { intros c. unfold L. rewrite !filter_In. cbn [negb orb]. rewrite (names_spec f p c (ok_keys f Hf)), andb_true_iff.
        destruct (hidden pattern), (hidden c); cbn; intuition congruence. }
      assert (NL : forall c, In c L -> name c) by (intros c Hc; apply (names_name f p c Hf); unfold L in Hc; now apply filter_In in Hc as [Hc _]; apply filter_In in Hc as [Hc _]).
      assert (M : map (filePath cwd) (map (joinpath (render n p)) L) = map (fun c => render n (p ++ [c])) L).
      { rewrite map_map. apply map_ext_in. intros c Hc. unfold filePath. rewrite join_child by auto. apply abspath_render. apply absolute_snoc; auto. }
      rewrite M. split.
      + assert (ND : NoDup L) by (unfold L; apply NoDup_filter, NoDup_filter, names_nodup, Hf). clear EL M. revert NL. induction ND as [|c L' Hc ND IH]; intros NL; [constructor|].
        cbn [map]. constructor; [|apply IH; intros d Hd'; apply NL; now right]. intros Hi. apply in_map_iff in Hi as (d & E & Hi).
        assert (Hcn : name c) by (apply NL; now left). assert (Hdn : name d) by (apply NL; now right).
        apply (f_equal place) in E. rewrite !place_render in E by (apply absolute_snoc; auto). apply app_inj_tail in E as [_ ->]. contradiction.
      + intros q. rewrite in_map_iff. split; [intros (c & <- & Hc); exists c; split; [reflexivity|now apply EL]|intros (c & -> & Hc); exists c; split; [reflexivity|now apply EL]].
    - destruct Hp as [Hp|Hp]; [discriminate|]. assert (HM : forall A B : list str, match pattern with [] => A | _ => B end = B) by (intros; destruct pattern; [destruct Hp as [Hp _]; congruence|reflexivity]). rewrite HM. clear HM.
      rewrite with_child by auto. assert (LE : lexists f (render n (p ++ [pattern])) = match dget f (p ++ [pattern]) with Some _ => true | None => false end) by (unfold lexists; now rewrite place_render by (apply absolute_snoc; auto)). rewrite LE. clear LE.
      assert (EQ : forall q, (exists c, q = render n (p ++ [c]) /\ dget f (p ++ [c]) <> None /\ fnmatch pattern c = true /\ (hidden c = true -> hidden pattern = true)) <->
        q = render n (p ++ [pattern]) /\ dget f (p ++ [pattern]) <> None).
      { intros q. split; [intros (c & -> & H1 & H2 & _); apply (plain_match _ _ Ep) in H2; subst c; auto|intros [-> H]; exists pattern; split; [reflexivity|]; split; [exact H|]; split; [now apply plain_match|auto]]. }
      destruct (dget f (p ++ [pattern])) as [e|] eqn:E; cbn [map].
      + split; [constructor; [intros []|constructor]|]. intros q. rewrite EQ. unfold filePath. rewrite abspath_render by (apply absolute_snoc; auto). cbn [In]. intuition congruence.
      + split; [constructor|]. intros q. rewrite EQ. cbn [In]. intuition congruence.
  Qed.

  (** ** Patterns of several names *)

  (** a name fits one segment of a pattern *)
  Definition fits (seg c : str) : Prop := fnmatch seg c = true /\ (hidden c = true -> hidden seg = true).

  Lemma fits_plain seg c : has_magic seg = false -> fits seg c <-> c = seg.
  Proof. intros H. unfold fits. rewrite (plain_match seg c H). split; [intros [-> _]; reflexivity|intros ->; auto]. Qed.
  Lemma magic_join segs : has_magic (join slash segs) = existsb has_magic segs.
  Proof.
    induction segs as [|a segs IH]; [reflexivity|]. destruct segs as [|b segs]; [cbn [existsb]; rewrite orb_false_r; reflexivity|].
    change (join slash (a :: b :: segs)) with (a ++ slash ++ join slash (b :: segs)). rewrite !magic_app, IH. reflexivity.
  Qed.
  Lemma magic_slashes n : has_magic (repeat 47%N n) = false.
  Proof. induction n; [reflexivity|exact IHn]. Qed.
  Lemma magic_render n segs : has_magic (render n segs) = existsb has_magic segs.
  Proof. unfold render. now rewrite magic_app, magic_slashes, magic_join. Qed.
  Lemma plain_segs segs : existsb has_magic segs = false -> forall cs, Forall2 fits segs cs <-> cs = segs.
  Proof.
    induction segs as [|a segs IH]; intros H cs.
    - split; [intros F; now inversion F|intros ->; constructor].
    - cbn [existsb] in H. apply orb_false_iff in H as [H1 H2]. split.
      + intros F. inversion F as [|x y l l' Fx Fl]; subst. apply (fits_plain a y H1) in Fx as ->. f_equal. now apply IH.
      + intros ->. constructor; [now apply fits_plain|now apply IH].
  Qed.
  Lemma Forall2_snoc_inv {A B} (P : A -> B -> Prop) l a l' : Forall2 P (l ++ [a]) l' -> exists m b, l' = m ++ [b] /\ Forall2 P l m /\ P a b.
  Proof. intros H. apply Forall2_app_inv_l in H as (m & r & H1 & H2 & ->). inversion H2 as [|x y u v Hx Hu]; subst. inversion Hu; subst. now exists m, y. Qed.
  Lemma nodup_app {A} (l l' : list A) : NoDup l -> NoDup l' -> (forall a, In a l -> In a l' -> False) -> NoDup (l ++ l').
  Proof.
    intros N N' D. induction N as [|a l Ha N IH]; [exact N'|]. cbn. constructor; [|apply IH; intros; eapply D; eauto; now right].
    intros H. apply in_app_or in H as [H|H]; [contradiction|]. apply (D a); [now left|exact H].
  Qed.
  Lemma nodup_flat {A B} (g : A -> list B) l : NoDup l -> (forall a, In a l -> NoDup (g a)) -> (forall a a' b, In a l -> In a' l -> In b (g a) -> In b (g a') -> a = a') -> NoDup (flat_map g l).
  Proof.
    intros N. induction N as [|a l Ha N IH]; intros G D; [constructor|]. cbn [flat_map]. apply nodup_app.
    - apply G. now left.
    - apply IH; [intros; apply G; now right|intros; eapply D; eauto; now right].
    - intros b H1 H2. apply in_flat_map in H2 as (a' & Ha' & Hb). assert (a = a') by (apply (D a a' b); auto; [now left|now right]). now subst.
  Qed.

  Lemma iglob_spec n f (Hf : okfs f) : forall segs fuel dironly, absolute n segs -> segs <> [] -> (length segs <= fuel)%nat ->
    let L := iglob fuel f (render n segs) dironly in
    (forall q, In q L -> exists cs, q = render n cs /\ Forall2 fits segs cs /\ dget f cs <> None) /\
    (forall cs, Forall2 fits segs cs -> dget f cs = Some EDir \/ (dironly = false /\ dget f cs <> None) -> In (render n cs) L) /\
    NoDup L.
  Proof.
    induction segs as [|b ss IH] using rev_ind; intros fuel dironly Ha Hne Hl; [congruence|]. clear Hne.
    assert (Has : absolute n ss) by (destruct Ha as [H1 H2]; apply Forall_app in H2 as [H2 _]; now split).
    assert (Hb : name b) by (destruct Ha as [H1 H2]; apply Forall_app in H2 as [_ H2]; now inversion H2).
    rewrite app_length in Hl; cbn in Hl. destruct fuel as [|fuel]; [lia|]. cbn zeta. cbn [iglob].
    assert (Hs : ~ In 47%N b) by apply Hb.
    destruct (split_pattern n ss b Has Hs) as [Eb Ed]. rewrite (with_child n ss b Has Hb) in Eb, Ed. rewrite Eb, Ed.
    destruct (has_magic (render n (ss ++ [b]))) eqn:Em; cbn [negb].
    2: { assert (HM : forall A (x y : A), match b with [] => x | _ => y end = y) by (intros; destruct b; [destruct Hb as [Hb _]; congruence|reflexivity]). rewrite HM. clear HM.
      rewrite magic_render in Em. unfold lexists. rewrite (place_render n _ Ha). destruct (dget f (ss ++ [b])) as [e|] eqn:E.
      - split; [|split; [|constructor; [intros []|constructor]]].
        + intros q [<-|[]]. exists (ss ++ [b]). split; [reflexivity|]. split; [now apply plain_segs|congruence].
        + intros cs F _. apply (plain_segs _ Em) in F as ->. now left.
      - split; [intros q []|split; [|constructor]]. intros cs F H. apply (plain_segs _ Em) in F as ->. rewrite E in H. destruct H as [H|[_ H]]; congruence. }
    assert (Ene : eqb (render n ss) (render n (ss ++ [b])) = false).
    { apply eqb_neq. intros E. apply (f_equal place) in E. rewrite !place_render in E by auto. apply (f_equal (@length str)) in E. rewrite app_length in E. cbn in E. lia. }
    rewrite Ene. cbn [negb andb].
    set (D := if has_magic (render n ss) then iglob fuel f (render n ss) true else [render n ss]).
    assert (DS : (forall d, In d D -> exists ds, d = render n ds /\ Forall2 fits ss ds /\ absolute n ds) /\
                 (forall ds, Forall2 fits ss ds -> dget f ds = Some EDir -> In (render n ds) D) /\ NoDup D).
    { unfold D. destruct (has_magic (render n ss)) eqn:Es.
      - destruct ss as [|s0 ss']; [destruct Has as [[->| ->] _]; discriminate Es|].
        destruct (IH fuel true Has ltac:(discriminate) ltac:(lia)) as (I1 & I2 & I3). split; [|split; [|exact I3]].
        + intros d Hd. apply I1 in Hd as (cs & -> & F & N). exists cs. split; [reflexivity|]. split; [exact F|]. split; [apply Has|]. destruct (dget f cs) as [e|] eqn:E; [|congruence]. exact (ok_names f Hf _ _ E).
        + intros ds F E. apply I2; auto.
      - rewrite magic_render in Es. split; [|split; [|constructor; [intros []|constructor]]].
        + intros d [<-|[]]. exists ss. split; [reflexivity|]. split; [now apply plain_segs|exact Has].
        + intros ds F _. apply (plain_segs _ Es) in F as ->. now left. }
    destruct DS as (D1 & D2 & D3).
    set (g := fun d => map (joinpath d) (if has_magic b then glob1 f d b dironly else glob0 f d b)).
    assert (G : forall ds, absolute n ds -> NoDup (g (render n ds)) /\
      (forall q, In q (g (render n ds)) -> exists c, q = render n (ds ++ [c]) /\ absolute n (ds ++ [c]) /\ fits b c /\ dget f (ds ++ [c]) <> None) /\
      (forall c, fits b c -> dget f (ds ++ [c]) = Some EDir \/ (dironly = false /\ dget f (ds ++ [c]) <> None) -> In (render n (ds ++ [c])) (g (render n ds)))).
    { intros ds Hds. unfold g. destruct (has_magic b) eqn:Emb.
      - assert (EL : forall c, In c (glob1 f (render n ds) b dironly) <-> dget f ds = Some EDir /\ dget f (ds ++ [c]) <> None /\ fits b c /\ (dironly = true -> dget f (ds ++ [c]) = Some EDir)).
        { intros c. unfold glob1, isdir. rewrite (place_render n ds Hds). destruct (dget f ds) as [[]|] eqn:E; cbn [In]; try (split; [intros []|intros [X _]; discriminate X]).
          rewrite !filter_In, (names_spec f ds c (ok_keys f Hf)), !andb_true_iff. unfold fits.
          assert (X : dget f (ds ++ [c]) <> None -> place (joinpath (render n ds) c) = ds ++ [c]).
          { intros N. assert (Hc : name c) by (apply (names_name f ds c Hf); now apply (names_spec f ds c (ok_keys f Hf))). rewrite (join_child n ds c Hds Hc). apply place_render, absolute_snoc; auto. }
          split.
          - intros [[N Y] [Z W]]. rewrite (X N) in Y. split; [reflexivity|]. split; [exact N|]. split; [split; [exact W|intros Hc; rewrite Hc in Z; destruct (hidden b); [reflexivity|discriminate Z]]|].
            intros ->. cbn [negb orb] in Y. destruct (dget f (ds ++ [c])) as [[]|]; congruence.
          - intros (_ & N & [W Z] & Y). rewrite (X N). split; [split; [exact N|]|split; [|exact W]].
            + destruct dironly; [|reflexivity]. now rewrite Y.
            + destruct (hidden c); [rewrite Z by reflexivity; reflexivity|apply orb_true_r]. }
        assert (NL : forall c, In c (glob1 f (render n ds) b dironly) -> name c).
        { intros c Hc. apply EL in Hc as (_ & N & _). apply (names_name f ds c Hf). now apply (names_spec f ds c (ok_keys f Hf)). }
        split; [|split].
        + assert (ND : NoDup (glob1 f (render n ds) b dironly)) by (unfold glob1; destruct (isdir f (render n ds)); [apply NoDup_filter, NoDup_filter, names_nodup, Hf|constructor]).
          clear EL. revert NL. induction ND as [|c L' Hc ND IHL]; intros NL; [constructor|]. cbn [map]. constructor; [|apply IHL; intros; apply NL; now right].
          intros Hi. apply in_map_iff in Hi as (d & E & Hi). assert (Hcn : name c) by (apply NL; now left). assert (Hdn : name d) by (apply NL; now right).
          rewrite !join_child in E by auto. apply (f_equal place) in E. rewrite !place_render in E by (apply absolute_snoc; auto). apply app_inj_tail in E as [_ ->]. contradiction.
        + intros q Hq. apply in_map_iff in Hq as (c & <- & Hc). exists c. pose proof (NL c Hc) as Hcn. split; [now apply join_child|]. split; [now apply absolute_snoc|]. apply EL in Hc. tauto.
        + intros c F H. assert (N : dget f (ds ++ [c]) <> None) by (destruct H as [H|[_ H]]; congruence).
          assert (Hc : name c) by (apply (names_name f ds c Hf); now apply (names_spec f ds c (ok_keys f Hf))).
          rewrite <- (join_child n ds c Hds Hc). apply in_map, EL. split; [|split; [exact N|split; [exact F|intros ->; destruct H as [H|[H _]]; [exact H|discriminate H]]]].
          destruct (dget f (ds ++ [c])) as [e|] eqn:E; [|congruence]. exact (ok_above f Hf _ _ _ E).
      - assert (E0 : glob0 f (render n ds) b = if lexists f (joinpath (render n ds) b) then [b] else []) by (unfold glob0; destruct b; [destruct Hb as [Hb _]; congruence|reflexivity]).
        rewrite E0. unfold lexists. rewrite (join_child n ds b Hds Hb), (place_render n _ (absolute_snoc n ds b Hds Hb)).
        destruct (dget f (ds ++ [b])) as [e|] eqn:E; cbn [map].
        + rewrite (join_child n ds b Hds Hb). split; [constructor; [intros []|constructor]|]. split.
          * intros q [<-|[]]. exists b. split; [reflexivity|]. split; [now apply absolute_snoc|]. split; [now apply fits_plain|congruence].
          * intros c F _. apply (fits_plain b c Emb) in F as ->. now left.
        + split; [constructor|]. split; [intros q []|]. intros c F H. apply (fits_plain b c Emb) in F as ->. rewrite E in H. destruct H as [H|[_ H]]; congruence. }
    split; [|split].
    - intros q Hq. apply in_flat_map in Hq as (d & Hd & Hq). apply D1 in Hd as (ds & -> & F & Hds). apply (G ds Hds) in Hq as (c & -> & _ & Fc & N). exists (ds ++ [c]). split; [reflexivity|]. split; [apply Forall2_app; [exact F|now constructor]|exact N].
    - intros cs F H. apply Forall2_snoc_inv in F as (ds & c & -> & F & Fc).
      assert (N : dget f (ds ++ [c]) <> None) by (destruct H as [H|[_ H]]; congruence).
      assert (Ep : dget f ds = Some EDir) by (destruct (dget f (ds ++ [c])) as [e|] eqn:E; [exact (ok_above f Hf _ _ _ E)|congruence]).
      apply in_flat_map. exists (render n ds). split; [now apply D2|]. apply G; auto. split; [apply Has|exact (ok_names f Hf _ _ Ep)].
    - apply nodup_flat; [exact D3| |].
      + intros d Hd. apply D1 in Hd as (ds & -> & _ & Hds). now apply G.
      + intros d d' q Hd Hd' H1 H2. apply D1 in Hd as (ds & -> & _ & Hds). apply D1 in Hd' as (ds' & -> & _ & Hds').
        apply (G ds Hds) in H1 as (c & -> & A1 & _). apply (G ds' Hds') in H2 as (c' & E & A2 & _). apply (f_equal place) in E. rewrite !place_render in E by auto. apply app_inj_tail in E as [-> _]. reflexivity.
  Qed.

  Lemma with_segs n (p : loc) segs : absolute n p -> Forall name segs -> segs <> [] -> (if suffixb slash (render n p) then render n p ++ join slash segs else join slash [render n p; join slash segs]) = render n (p ++ segs).
  Proof.
    intros Ha Hs Hne. destruct p as [|d p].
    - destruct Ha as [[->| ->] _]; reflexivity.
    - rewrite (render_end n (d :: p) Ha ltac:(discriminate)). unfold render. change (join slash [repeat 47%N n ++ join slash (d :: p); join slash segs]) with ((repeat 47%N n ++ join slash (d :: p)) ++ slash ++ join slash segs).
      rewrite <- app_assoc. f_equal. clear Ha. revert d. induction p as [|e p IH]; intros d.
      + destruct segs; [congruence|reflexivity].
      + change (join slash (d :: e :: p)) with (d ++ slash ++ join slash (e :: p)). change ((d :: e :: p) ++ segs) with (d :: e :: (p ++ segs)). change (join slash (d :: e :: (p ++ segs))) with (d ++ slash ++ join slash (e :: (p ++ segs))). rewrite <- !app_assoc. do 2 f_equal. apply IH.
  Qed.
  Lemma render_length n segs : Forall name segs -> (length segs <= S (length (render n segs)))%nat.
  Proof.
    intros H. unfold render. rewrite app_length. enough (length segs <= S (length (join slash segs)))%nat by lia.
    induction H as [|a segs Ha H IH]; [cbn; lia|]. destruct segs as [|b segs]; [cbn; lia|]. change (join slash (a :: b :: segs)) with (a ++ slash ++ join slash (b :: segs)). rewrite !app_length. cbn [length slash] in *.
    change (length slash) with 1%nat. lia.
  Qed.

  Theorem glob_segs cwd f n (p : loc) (segs : list str) : okfs f -> absolute n p -> Forall name segs -> segs <> [] ->
    NoDup (globChildren cwd f (render n p) (join slash segs)) /\
    forall q, In q (globChildren cwd f (render n p) (join slash segs)) <-> exists cs, q = render n cs /\ Forall2 fits (p ++ segs) cs /\ dget f cs <> None.
  Proof.
    intros Hf Ha Hs Hne. assert (Hall : absolute n (p ++ segs)) by (split; [apply Ha|apply Forall_app; split; [apply Ha|exact Hs]]).
    unfold globChildren. rewrite (with_segs n p segs Ha Hs Hne). unfold glob.
    destruct (iglob_spec n f Hf (p ++ segs) (S (length (render n (p ++ segs)))) false Hall ltac:(destruct p; [exact Hne|discriminate]) (render_length n _ (proj2 Hall))) as (I1 & I2 & I3).
    assert (M : map (filePath cwd) (iglob (S (length (render n (p ++ segs)))) f (render n (p ++ segs)) false) = iglob (S (length (render n (p ++ segs)))) f (render n (p ++ segs)) false).
    { rewrite <- map_id. apply map_ext_in. intros q Hq. apply I1 in Hq as (cs & -> & _ & N). unfold filePath. apply abspath_render. split; [apply Ha|]. destruct (dget f cs) eqn:E; [exact (ok_names f Hf _ _ E)|congruence]. }
    rewrite M. split; [exact I3|]. intros q. split; [apply I1|]. intros (cs & -> & F & N). apply I2; auto.
  Qed.
End Glob.
