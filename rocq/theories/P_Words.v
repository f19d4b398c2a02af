(** Where the words of an analysis come from: the invariant of rewriting and splitting, for
    any predicate on words. *)
From Coq Require Import List ZArith Lia Bool Arith.
From Verif Require Import Base Utf8 M_Builder M_InputText M_InputPlugins M_Lattice M_Oov M_Tokenizer M_Morphemes
  M_NumericParser M_PathRewrite M_Shipped S_Text S_Plugins S_Lattice S_Numeric S_Rewrite
  P_Builder P_InputText P_Accessors P_Plugins P_Oov P_Lattice P_Tokenizer P_Path P_Config P_History P_Morphemes P_Total
  P_Rewrite P_RewriteNum P_RewriteTerm P_RewriteTile
  Prop_Text Prop_Plugins Prop_Lattice Prop_Tokenizer Prop_Total Prop_Rewrite Prop_Shipped.
Import ListNotations.
Open Scope nat_scope.

(** A node for a word of the lexicon; a node with a word info of its own and no splits *)
Definition lexical (w : wnode) : Prop := w_oov w = false /\ w_extra w = None /\ w_defined w = true.
Definition made_up (w : wnode) (oov : bool) (pos : Z) : Prop :=
  w_oov w = oov /\ w_defined w = true /\ exists wi, w_extra w = Some wi /\ wi_pos wi = pos /\ wi_a wi = [] /\ wi_b wi = [].

(** The part of speech is one that the provider gives. *)
Definition gives (p : provider) (pos : Z) : Prop :=
  match p with
  | Simple c => pos = so_pos c
  | MeCab c => exists ct oovs o, mc_oovs c ct = Some oovs /\ In o oovs /\ pos = oe_pos o
  end.

Section words.
Variable s : settings.
Hypothesis G : good_settings s.

(** A candidate is a word that was found where it begins, or one of an OOV provider. *)
Lemma considered_source t orig m2o it (B : P_InputText.built t orig m2o (map (s_category s) t) it) w : considered (cfg := shipped s) (it := it) w ->
  (lexical w /\ In (w_id w, w_end w) (fst (s_lookup s (it_bytes it) (w_begin w))) /\ s_params s (w_id w) = Ok (w_left w, w_right w, w_cost w) /\
     can_bow it (w_begin w) = Ok true /\ (w_end w < length (it_bytes it) -> can_bow it (w_end w) = Ok true)) \/
  (exists p pos, In p (s_providers s) /\ gives p pos /\ made_up w true pos).
Proof.
  intros (H1 & H2 & H3). pose proof (bow_start B _ H2) as (k & Hk & Ek).
  apply candidates_sound in H3 as [(wid & e & l & r & c & Hin & Hpa & Hbo & _ & Ew)|(p & h & ns & Hp & Hg & Hw)].
  - left. rewrite Ew. cbn. split; [repeat split|]. split; [exact Hin|]. split; [exact Hpa|]. auto.
  - right. rewrite Ek in Hg. destruct (get_oov_span B p h ns k w Hk Hg Hw) as (j & l & r & c & ps & Hj & Ew & Hm).
    exists p, ps. split; [exact Hp|]. split.
    + destruct p as [sc|mc]; cbn [gives]; [apply Hm|]. destruct Hm as (ct & oovs & o & A1 & A2 & _ & _ & _ & A3). exists ct, oovs, o. auto.
    + rewrite Ew. split; [reflexivity|]. split; [reflexivity|]. eexists. repeat split.
Qed.

Lemma path_words lat t lat1 it p0 p1 (K : wnode -> Prop) :
  usable (shipped s) lat -> t <> [] -> run_prepare (shipped s) t = Ok it -> run_analyse (shipped s) lat it = (lat1, Ok p0) ->
  foldM (fun p plugin => plugin it p lat1) p0 (cf_rewrites (shipped s)) = Ok p1 ->
  (forall w, lexical w -> In (w_id w, w_end w) (fst (s_lookup s (it_bytes it) (w_begin w))) -> s_params s (w_id w) = Ok (w_left w, w_right w, w_cost w) ->
     can_bow it (w_begin w) = Ok true -> (w_end w < length (it_bytes it) -> can_bow it (w_end w) = Ok true) -> K w) ->
  (forall p pos w, In p (s_providers s) -> gives p pos -> made_up w true pos -> K w) ->
  (forall c w, In (JoinKatakana c) (s_rewriters s) -> made_up w true (jk_pos c) -> K w) ->
  (forall c w, In (JoinNumeric c) (s_rewriters s) -> made_up w false (jn_pos c) -> K w) ->
  Forall K p1.
Proof.
  intros U Ht Ep Ea Ef KD KO KK KN. pose proof (shipped_sane s G) as S.
  destruct (run_prepare_built (shipped s) t it S Ht Ep) as (bd & _ & _ & B).
  destruct (analyse_path S B lat lat1 p0 (usable_clean _ _ S U) Ea) as (T & F & _).
  destruct (analyse_lists S B lat lat1 _ (usable_clean _ _ S U) Ea) as (LE & LW).
  assert (CK : forall w, considered (cfg := shipped s) (it := it) w -> K w).
  { intros w Hw. destruct (considered_source _ _ _ _ B w Hw) as [(A1 & A2 & A3 & A4 & A5)|(p & pos & A1 & A2 & A3)]; eauto. }
  cbn [shipped cf_rewrites] in Ef.
  assert (R : forall rs p p', (forall r, In r rs -> In r (s_rewriters s)) ->
     tiles 0 (map to_step p) (length (it_bytes it)) -> Forall K p ->
     foldM (fun p plugin => plugin it p lat1) p (map (rewrite_with (s_lexinfo s)) rs) = Ok p' -> Forall K p').
  { clear - LE LW CK KK KN. induction rs as [|r rs IH]; intros p p' Hin T F E; cbn [map foldM] in E; [now injection E as <-|].
    apply bind_ok in E as (q & Eq & E). eapply IH; [| | |exact E]; [intros r' Hr; apply Hin; now right| |].
    - destruct (rewriter_good (s_lexinfo s) r) as (_ & TR). eapply TR; eauto.
    - destruct r as [c|c]; cbn [rewrite_with] in Eq.
      + eapply (kata_loop_all (s_lexinfo s) K c it lat1); eauto.
        * intros b e w Hbe (ls & Els & Hin' & _). apply CK. eapply LW; eauto. lia.
        * intros b e wi A1 A2 A3. apply (KK c); [apply Hin; now left|]. repeat split; auto. exists wi. auto.
      + eapply (jn_loop_all (s_lexinfo s) K c it); eauto. intros b e wi A1 A2 A3.
        apply (KN c); [apply Hin; now left|]. repeat split; auto. exists wi. auto. }
  eapply R; [|exact T| |exact Ef]; [auto|]. eapply Forall_impl; [|exact F]. exact CK.
Qed.

(** Splitting, when the ids [D] are closed under splits *)
Lemma split_words (D : Z -> Prop) (K : wnode -> Prop) :
  (forall wid wi, D wid -> s_lexinfo s wid = Ok wi -> Forall D (wi_a wi ++ wi_b wi)) ->
  (forall w, lexical w -> D (w_id w) -> K w) ->
  (forall w, K w -> (lexical w /\ D (w_id w)) \/ exists o pos, made_up w o pos) ->
  forall m p q, Forall K p -> split_path (s_lexinfo s) m p = Ok q -> Forall K q.
Proof.
  intros CD HK KK m p q F E.
  assert (SN : forall wids b ns, Forall D wids -> split_nodes (s_lexinfo s) b wids = Ok ns -> Forall K ns).
  { induction wids as [|x wids IH]; intros b ns Fx En; cbn [split_nodes] in En; [injection En as <-; constructor|].
    apply bind_ok in En as (nd & End & En). apply bind_ok in En as (wi & Ew & En). apply bind_ok in En as (r & Er & [= <-]).
    inversion Fx; subst. constructor; [|eauto]. unfold lex_node in End. apply bind_ok in End as (z & Ez & [= <-]).
    apply to_int_ok in Ez as (-> & _). apply HK; [repeat split|assumption]. }
  assert (S1 : forall w ns, K w -> split_one (s_lexinfo s) m w = Ok ns -> Forall K ns).
  { intros w ns Hw En. unfold split_one in En. apply bind_ok in En as (wi & Ew & En).
    destruct (Nat.leb_spec (length (match m with ModeA => wi_a wi | _ => wi_b wi end)) 1); [injection En as <-; auto|].
    apply (SN _ _ _) in En; auto. destruct (KK w Hw) as [((_ & X & D1) & D2)|(o & pos & _ & D1 & wi' & X & _ & A & B)];
      unfold node_info in Ew; rewrite D1, X in Ew; cbn [negb] in Ew.
    - apply (CD _ _ D2) in Ew. apply Forall_app in Ew as (E1 & E2). destruct m; auto.
    - injection Ew as <-. destruct m; rewrite ?A, ?B; constructor. }
  assert (S2 : forall p nss, Forall K p -> mapM (split_one (s_lexinfo s) m) p = Ok nss -> Forall K (concat nss)).
  { induction p0 as [|w p0 IH]; intros nss Fp En; cbn [mapM] in En; [injection En as <-; constructor|].
    apply bind_ok in En as (a & Ea & En). apply bind_ok in En as (b & Eb & [= <-]). inversion Fp; subst. cbn [concat]. apply Forall_app. eauto. }
  destruct m; cbn [split_path] in E; [| |now injection E as <-]; apply bind_ok in E as (nss & En & [= <-]); eauto.
Qed.
End words.
