(** C44-C46: reading word infos. *)
From Coq Require Import List ZArith Lia Bool Arith Sorted.
From Verif Require Import Base Utf8 M_Builder M_Lattice M_Tokenizer M_Bytes P_Bytes M_DicReader M_DicBuilder M_Threads P_DicFormat P_DicWrite P_DicOpen
  P_DicGrammar P_DicSource P_DicLexicon P_DicFile P_DicToy Prop_Format.
Import ListNotations.
Open Scope Z_scope.

(** ** C44 *)
Section forms.
Variable k : kind.
Variable py_int : text -> res Z.
Variable is_digit : Z -> bool.
Variable search : bytes -> bytes -> list (Z * nat).
Variable trie_array : list (bytes * Z) -> res bytes.
Hypothesis contract : trie_contract search trie_array.

Variables (now : Z) (description : text) (rows : list (list text)) (ms : option matrix_source) (d : bytes) (s : source) (dict : dictionary).
Hypothesis built : build_command k py_int is_digit trie_array now description rows ms = Ok d.
Hypothesis now_ok : 0 <= now.
Hypothesis description_ok : ~ In 0 description.
Hypothesis source_of : build_lexicon k py_int new_source rows = Ok s.
Hypothesis table_ok : Forall readable_pos (s_table s).
Hypothesis matrix_ok : forall m, matrix_written k ms = Some m -> exists n, has_matrix n m.
Hypothesis strings_ok : Forall fits (s_entries s).
Hypothesis opened : read_dictionary d = Ok dict.

Lemma opened_lexicon : lexicon_of k py_int is_digit search s (d_lexicon dict) /\ lx_syn (d_lexicon dict) = true.
Proof.
  destruct (build_command_ok _ _ _ _ _ contract _ _ _ _ _ built now_ok description_ok) as (s' & Hs' & R).
  rewrite source_of in Hs'. injection Hs' as <-. destruct (R table_ok matrix_ok) as (dict' & g & E & _ & _ & _ & _ & _ & LO & LS).
  rewrite opened in E. injection E as <-. auto.
Qed.

(** Words whose chain of dictionary forms ends: the dictionary form is the surface of the
    word that the entry names, or its own *)
Theorem C44_forms_partial limit n i e :
  nth_error (s_entries s) i = Some e -> chain_ends (s_entries s) n i -> (n <= limit)%nat ->
  exists wi, lx_word_info limit (d_lexicon dict) (Z.of_nat i) = Ok wi /\ wi_surface wi = e_surface e /\
    (e_dic_id e < 0 -> wi_dic wi = e_surface e) /\
    (forall j e', e_dic_id e = Z.of_nat j -> nth_error (s_entries s) j = Some e' -> wi_dic wi = e_surface e').
Proof.
  intros Hi C L. destruct opened_lexicon as [LO LS].
  destruct (lexicon_word_info _ _ _ _ _ _ limit n i 0 LO LS strings_ok C L ltac:(lia)) as (e0 & wi & Hi0 & I & P).
  rewrite Hi in Hi0. injection Hi0 as <-.
  destruct I as (e1 & ia & ib & ic & t1 & t2 & t3 & t4 & Hi1 & _ & _ & _ & ->). rewrite Hi in Hi1. injection Hi1 as <-.
  eexists. split; [unfold lx_word_info; rewrite P; reflexivity|].
  cbn [set_dictionary_form entry_info wi_surface wi_dic]. split; [reflexivity|]. unfold dictionary_form_of. split.
  - intros D. replace (e_dic_id e <? 0) with true by (symmetry; now apply Z.ltb_lt). reflexivity.
  - intros j e' D Hj. rewrite D. replace (Z.of_nat j <? 0) with false by (symmetry; apply Z.ltb_ge; lia). now rewrite Nat2Z.id, Hj.
Qed.

(** Words from which the chain never ends: whatever the recursion limit, RecursionError *)
Theorem C44_endless (endless : nat -> Prop) :
  (forall i, endless i -> exists e j, nth_error (s_entries s) i = Some e /\ e_dic_id e = Z.of_nat j /\ j <> i /\ endless j) ->
  forall limit i, endless i -> lx_word_info limit (d_lexicon dict) (Z.of_nat i) = Err ERecursion.
Proof.
  intros HE limit i Hi. unfold lx_word_info. destruct opened_lexicon as [LO LS]. rewrite LS.
  pose proof (lexicon_info_file _ _ _ _ _ _ LO strings_ok) as F.
  set (b := lx_data (d_lexicon dict)) in *. set (off := lx_infos (d_lexicon dict)) in *.
  assert (X : forall depth p i, endless i -> (p <= length b)%nat -> snd (prun b p (read_word_info off true depth (Z.of_nat i))) = Err ERecursion).
  2: { apply X; [auto|lia]. }
  clear i Hi. induction depth as [|depth IH]; intros p i Hi Hp; [reflexivity|].
  destruct (HE _ Hi) as (e & j & He & Hj & Hne & Hend).
  destruct (F _ _ He) as (o & q & bs & wi & Ho & A1 & A2 & R & G).
  destruct (put_int_seek _ _ _ _ _ Ho A1 A2) as (S1 & S2 & S3).
  assert (Gd : wi_dic_id wi = e_dic_id e).
  { destruct G as (e1 & ia & ib & ic & t1 & t2 & t3 & t4 & Hi1 & _ & _ & _ & ->). rewrite He in Hi1. injection Hi1 as <-. reflexivity. }
  cbn [read_word_info]. rewrite prun_bind. cbn [ptell prun].
  rewrite prun_bind. unfold word_id_to_offset. rewrite prun_bind. cbn [psub prun]. rewrite Nat2Z.id, S1, S2.
  rewrite prun_bind. unfold pseek. rewrite prun_seek by lia. cbn [prun]. rewrite Nat2Z.id.
  rewrite prun_bind, (R _ _ A2). rewrite prun_bind, Gd, Hj.
  replace (0 <=? Z.of_nat j) with true by (symmetry; apply Z.leb_le; lia).
  replace (Z.of_nat j =? Z.of_nat i) with false by (symmetry; apply Z.eqb_neq; lia). cbn [andb negb].
  rewrite prun_bind.
  assert (Hq : (q + length bs <= length b)%nat) by (now apply At_length).
  specialize (IH _ _ Hend Hq). destruct (prun b (q + length bs) _) as [r [w|x]]; cbn [snd] in IH; [discriminate|].
  now injection IH as ->.
Qed.
End forms.
Print Assumptions C44_forms_partial.
Print Assumptions C44_endless.

(** Two entries that name each other as dictionary form: the builder accepts them, but their
    word infos cannot be read. *)
Definition cyclic_rows : list (list text) :=
  [ toy_row [26481] [49] P1 [1] [26481] [49] star star; toy_row [20140] [49] P1 [2] [20140] [48] star star ].
Theorem C44_cycle_refuted :
  exists d dict, build_command SystemDic toy_int toy_digit toy_array 0 [] cyclic_rows None = Ok d /\ read_dictionary d = Ok dict /\
    lx_size (d_lexicon dict) = 2%nat /\
    forall limit, lx_word_info limit (d_lexicon dict) 0 = Err ERecursion /\ lx_word_info limit (d_lexicon dict) 1 = Err ERecursion.
Proof.
  destruct (build_command _ _ _ _ _ _ _ _) as [d|] eqn:E; [|vm_compute in E; discriminate].
  destruct (build_lexicon SystemDic toy_int new_source cyclic_rows) as [s|] eqn:G; [|vm_compute in G; discriminate].
  destruct (read_dictionary d) as [dict|] eqn:F.
  2: { exfalso. vm_compute in E. injection E as <-. vm_compute in F. discriminate. }
  exists d, dict. split; [auto|]. split; [auto|].
  assert (T : Forall readable_pos (s_table s)).
  { clear - G. vm_compute in G. injection G as <-. cbn [s_table]. repeat constructor; vm_compute; (reflexivity || lia || discriminate). }
  assert (FF : Forall fits (s_entries s)).
  { clear - G. vm_compute in G. injection G as <-. cbn [s_entries]. repeat constructor; vm_compute; (reflexivity || discriminate). }
  assert (HM : forall m, matrix_written SystemDic None = Some m -> exists n, has_matrix n m) by (intros m X; discriminate X).
  assert (Z0 : ~ In 0 (@nil Z)) by (intros []).
  destruct (opened_lexicon _ _ _ _ _ toy_contract _ _ _ _ _ _ _ E (Z.le_refl 0) Z0 G T HM F) as [LO _].
  split. { rewrite (lo_size _ _ _ _ _ _ LO). clear - G. vm_compute in G. injection G as <-. reflexivity. }
  pose proof (C44_endless _ _ _ _ _ toy_contract _ _ _ _ _ _ _ E (Z.le_refl 0) Z0 G T HM FF F (fun i => (i < 2)%nat)) as X.
  assert (Y : forall i, (i < 2)%nat -> exists e j, nth_error (s_entries s) i = Some e /\ e_dic_id e = Z.of_nat j /\ j <> i /\ (j < 2)%nat).
  { clear - G. vm_compute in G. injection G as <-. intros [|[|i]] H; [| |lia].
    - eexists _, 1%nat. split; [reflexivity|]. split; [reflexivity|]. lia.
    - eexists _, 0%nat. split; [reflexivity|]. split; [reflexivity|]. lia. }
  intros limit. split; [apply (X Y limit 0%nat); lia|apply (X Y limit 1%nat); lia].
Qed.
Print Assumptions C44_cycle_refuted.

Example C44_nonvacuous : exists dict, read_dictionary toy_bytes = Ok dict /\
  (exists wi, lx_word_info 2 (d_lexicon dict) 1 = Ok wi /\ wi_surface wi = [20140] /\ wi_dic wi = [26481]).
Proof.
  destruct (read_dictionary toy_bytes) as [dict|] eqn:F; [|vm_compute in F; discriminate]. exists dict. split; [reflexivity|].
  destruct (lx_word_info 2 (d_lexicon dict) 1) as [wi|] eqn:I; vm_compute in F; injection F as <-; vm_compute in I; [|discriminate].
  injection I as <-. eexists. split; [reflexivity|]. split; reflexivity.
Qed.

(** ** C45 *)
(** One call: from any position the same result, and the position is the same afterwards. *)
Theorem C45_position limit off syn d p wid p' wi :
  (p <= length d)%nat -> prun d p (read_word_info off syn limit wid) = (p', Ok wi) ->
  p' = p /\ forall q, (q <= length d)%nat -> prun d q (read_word_info off syn limit wid) = (q, Ok wi).
Proof.
  intros Hp H. split; [eapply read_info_pos; eauto|]. intros q Hq.
  pose proof (read_info_anywhere off syn limit wid d p q Hp Hq) as X. rewrite H in X. cbn [snd] in X.
  destruct (prun d q _) as [r x] eqn:E. cbn [snd] in X. subst x. now rewrite (read_info_pos _ _ _ _ _ _ _ _ Hq E).
Qed.
Print Assumptions C45_position.

(** Any number of calls, failing ones among them: each gives what it gives alone. *)
Fixpoint calls (off : nat) (syn : bool) (limit : nat) (d : bytes) (p : nat) (wids : list Z) : list (res word_info) :=
  match wids with
  | [] => []
  | w :: r => let '(p', x) := prun d p (read_word_info off syn limit w) in x :: calls off syn limit d p' r
  end.
Theorem C45_repeatable limit off syn d p wids :
  (p <= length d)%nat ->
  calls off syn limit d p wids = map (fun w => snd (prun d 0 (read_word_info off syn limit w))) wids.
Proof.
  revert p. induction wids as [|w r IH]; intros p Hp; [reflexivity|]. cbn [calls map].
  pose proof (read_info_anywhere off syn limit w d p 0 Hp ltac:(lia)) as X.
  pose proof (prun_pos d (read_word_info off syn limit w) p Hp) as Y.
  destruct (prun d p _) as [p' x]. cbn [fst snd] in *. rewrite X, IH; auto.
Qed.
Print Assumptions C45_repeatable.

Example C45_nonvacuous : exists dict, read_dictionary toy_bytes = Ok dict /\
  map (fun x => match x with Ok wi => wi_surface wi | Err _ => [] end)
    (calls (lx_infos (d_lexicon dict)) true 5 (lx_data (d_lexicon dict)) 17 [2; 0; 2; 1]) = [[26481; 20140]; [26481]; [26481; 20140]; [20140]].
Proof.
  destruct (read_dictionary toy_bytes) as [dict|] eqn:F; [|vm_compute in F; discriminate]. exists dict. split; [reflexivity|].
  vm_compute in F. injection F as <-. vm_compute. reflexivity.
Qed.

(** ** C46 *)
Lemma turn_prun {A} d p (c : prog A) : prun d (fst (turn d p c)) (snd (turn d p c)) = prun d p c.
Proof.
  unfold turn. destruct c; cbn [step prun fst snd]; auto.
  - destruct (_ && _); reflexivity.
  - destruct (nth_error d p); reflexivity.
Qed.
Lemma turn_pos {A} d p (c : prog A) : (p <= length d)%nat -> (fst (turn d p c) <= length d)%nat.
Proof.
  intros Hp. unfold turn. destruct c; cbn [step fst]; auto.
  - destruct (_ && _) eqn:E; cbn [fst]; auto. Zbool. lia.
  - rewrite firstn_length, skipn_length. lia.
  - destruct (nth_error d p) eqn:E; cbn [fst]; auto. assert (p < length d)%nat by (apply nth_error_Some; congruence). lia.
Qed.

(** What a thread has returned *)
Definition returned {A} (c : prog A) : option A := match c with Ret a => Some a | _ => None end.

(** Two threads on the three-word dictionary, reading the words 0 and 2: switching in the
    middle, the first gets the second's word. *)
Theorem C46_interleaving_refuted :
  exists dict sched w1 w2,
    read_dictionary toy_bytes = Ok dict /\
    lx_word_info 5 (d_lexicon dict) 0 = Ok w1 /\
    returned (snd (fst (interleave (lx_data (d_lexicon dict)) 0 (read_word_info (lx_infos (d_lexicon dict)) true 5 0)
      (read_word_info (lx_infos (d_lexicon dict)) true 5 2) sched))) = Some w2 /\
    wi_surface w1 = [26481] /\ wi_surface w2 = [26481; 20140].
Proof.
  destruct (read_dictionary toy_bytes) as [dict|] eqn:F; [|vm_compute in F; discriminate].
  exists dict, ([true; true; true; false; false; false] ++ repeat true 40).
  destruct (lx_word_info 5 (d_lexicon dict) 0) as [w1|] eqn:I.
  2: { exfalso. vm_compute in F. injection F as <-. vm_compute in I. discriminate I. }
  destruct (returned _) as [w2|] eqn:J.
  2: { exfalso. vm_compute in F. injection F as <-. vm_compute in J. discriminate J. }
  exists w1, w2. split; [auto|]. split; [auto|]. split; [auto|].
  vm_compute in F. injection F as <-. vm_compute in I. injection I as <-. vm_compute in J. injection J as <-. split; reflexivity.
Qed.
Print Assumptions C46_interleaving_refuted.

(** Switches at which the other threads do whole calls that succeed: between any two
    operations of a call, any number of other calls. *)
Inductive event := Own | Other (wid : Z).
Fixpoint nested {A} (off : nat) (syn : bool) (limit : nat) (d : bytes) (p : nat) (c : prog A) (l : list event)
  : nat * prog A * list (res word_info) :=
  match l with
  | [] => (p, c, [])
  | Own :: r => let '(p', c') := turn d p c in nested off syn limit d p' c' r
  | Other w :: r =>
    let '(p', x) := prun d p (read_word_info off syn limit w) in
    let '(q, c', xs) := nested off syn limit d p' c r in (q, c', x :: xs)
  end.
Fixpoint others (l : list event) : list Z := match l with [] => [] | Own :: r => others r | Other w :: r => w :: others r end.

Theorem C46_whole_calls_partial {A} off syn limit d (c : prog A) l p q c' xs :
  (p <= length d)%nat ->
  Forall (fun w => exists wi, snd (prun d 0 (read_word_info off syn limit w)) = Ok wi) (others l) ->
  nested off syn limit d p c l = (q, c', xs) ->
  prun d q c' = prun d p c /\ xs = map (fun w => snd (prun d 0 (read_word_info off syn limit w))) (others l).
Proof.
  revert p c q c' xs. induction l as [|[|w] l IH]; intros p c q c' xs Hp F H; cbn [nested others map] in *.
  - injection H as <- <- <-. auto.
  - destruct (turn d p c) as [p' c1] eqn:E. pose proof (turn_prun d p c) as X. pose proof (turn_pos d p c Hp) as Y. rewrite E in X, Y. cbn [fst snd] in *.
    destruct (IH _ _ _ _ _ Y F H) as [R1 R2]. split; [congruence|auto].
  - inversion F as [|? ? (wi & Hw) F']; subst.
    pose proof (read_info_anywhere off syn limit w d p 0 Hp ltac:(lia)) as X.
    destruct (prun d p _) as [p' x] eqn:E. cbn [snd] in X. rewrite Hw in X. subst x. apply read_info_pos in E as E'; auto. subst p'.
    destruct (nested _ _ _ _ p c l) as [[q0 c0] xs0] eqn:N. injection H as <- <- <-.
    destruct (IH _ _ _ _ _ Hp F' N) as [R1 R2]. split; [auto|]. now rewrite Hw, R2.
Qed.
Print Assumptions C46_whole_calls_partial.

(** The call for word 1, the calls for 0 and 2 in the middle of it *)
Example C46_nonvacuous : exists dict w, read_dictionary toy_bytes = Ok dict /\
  let '(_, c, xs) := nested (lx_infos (d_lexicon dict)) true 5 (lx_data (d_lexicon dict)) 0
     (read_word_info (lx_infos (d_lexicon dict)) true 5 1) ([Own; Own; Own; Other 0; Own; Other 2] ++ repeat Own 60) in
  returned c = Some w /\ wi_surface w = [20140] /\ map (fun x => match x with Ok wi => wi_surface wi | Err _ => [] end) xs = [[26481]; [26481; 20140]].
Proof.
  destruct (read_dictionary toy_bytes) as [dict|] eqn:F; [|vm_compute in F; discriminate].
  destruct (lx_word_info 5 (d_lexicon dict) 1) as [w|] eqn:I.
  2: { exfalso. vm_compute in F. injection F as <-. vm_compute in I. discriminate I. }
  exists dict, w. split; [auto|]. vm_compute in F. injection F as <-. vm_compute in I. injection I as <-. vm_compute. auto.
Qed.
