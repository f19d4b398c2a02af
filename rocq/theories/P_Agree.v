(** Two configurations that answer alike about the words that a text has analyse it alike. *)
From Coq Require Import List ZArith Lia Bool Arith.
From Verif Require Import Base Utf8 M_Builder M_InputText M_InputPlugins M_Lattice M_Oov M_Tokenizer M_NumericParser M_PathRewrite M_Shipped
  S_Text S_Lattice P_Builder P_InputText P_Lattice P_Tokenizer P_Path P_Config P_Rewrite P_RewriteTile Prop_Tokenizer Prop_Shipped P_Words.
Import ListNotations.
Open Scope nat_scope.

Lemma slice_forall {A} (Q : A -> Prop) l b e : Forall Q l -> Forall Q (slice l b e).
Proof.
  intros F. unfold slice. rewrite Forall_forall in *. intros x Hx. apply F. rewrite <- (firstn_skipn e l). apply in_or_app. left.
  rewrite <- (firstn_skipn b (firstn e l)). apply in_or_app. now right.
Qed.

Section rewriting.
Variable lex1 lex2 : Z -> res word_info.
Definition agreed (w : wnode) : Prop := node_info lex1 w = node_info lex2 w.

Lemma agreed_infos path : Forall agreed path -> mapM (node_info lex1) path = mapM (node_info lex2) path.
Proof. induction 1 as [|w path E F IH]; [reflexivity|]. cbn [mapM]. now rewrite E, IH. Qed.
Lemma agreed_get path i w : Forall agreed path -> get path i = Ok w -> node_info lex1 w = node_info lex2 w.
Proof. intros F E. apply get_ok in E. rewrite Forall_forall in F. apply F. eapply nth_error_In; eauto. Qed.

Lemma concatenate_agree path b e norm : Forall agreed path -> concatenate lex1 path b e norm = concatenate lex2 path b e norm.
Proof.
  intros F. unfold concatenate. destruct (e <=? b); [reflexivity|]. destruct (get path b) as [x|] eqn:Eb; [|reflexivity]. cbn [bind].
  destruct (get path (e - 1)) as [y|]; [|reflexivity]. cbn [bind]. rewrite (agreed_get _ _ _ F Eb), (agreed_infos _ (slice_forall _ _ b e F)). reflexivity.
Qed.
Lemma concatenate_agreed path b e norm p : Forall agreed path -> concatenate lex1 path b e norm = Ok p -> Forall agreed p.
Proof.
  intros F. unfold concatenate. destruct (e <=? b); [discriminate|]. intros H. apply bind_ok in H as (x & _ & H). apply bind_ok in H as (y & _ & H).
  apply bind_ok in H as (i & _ & H). apply bind_ok in H as (is & _ & H). injection H as <-. apply splice_all; [exact F|]. reflexivity.
Qed.
Lemma jn_concat_agree cfg path b e p : Forall agreed path -> jn_concat lex1 cfg path b e p = jn_concat lex2 cfg path b e p.
Proof.
  intros F. unfold jn_concat. destruct (get path b) as [x|] eqn:Eb; [|reflexivity]. cbn [bind]. rewrite (agreed_get _ _ _ F Eb).
  destruct (node_info lex2 x) as [wi|]; [|reflexivity]. cbn [bind]. destruct (negb _); [reflexivity|]. destruct (jn_normalize cfg).
  - destruct (p_normalized p) as [[n ?]|]; [|reflexivity]. cbn [bind]. destruct (_ || _); [|reflexivity]. now apply concatenate_agree.
  - destruct (1 <? e - b); [|reflexivity]. now apply concatenate_agree.
Qed.
Lemma jn_concat_agreed cfg path b e p q : Forall agreed path -> jn_concat lex1 cfg path b e p = Ok q -> Forall agreed q.
Proof.
  intros F H. unfold jn_concat in H. apply bind_ok in H as (x & _ & H). apply bind_ok in H as (wi & _ & H). destruct (negb _); [now injection H as <-|].
  destruct (jn_normalize cfg).
  - apply bind_ok in H as ((n & ?) & _ & H). destruct (_ || _); [|now injection H as <-]. eapply concatenate_agreed; eauto.
  - destruct (1 <? e - b); [|now injection H as <-]. eapply concatenate_agreed; eauto.
Qed.

Lemma jn_step_agree cfg it st : Forall agreed (js_path st) -> jn_step lex1 cfg it st = jn_step lex2 cfg it st.
Proof.
  intros F. unfold jn_step. destruct (get (js_path st) (js_next st)) as [w|] eqn:Ew; [|reflexivity]. cbn [bind].
  destruct (node_cats it w); [|reflexivity]. cbn [bind]. rewrite (agreed_get _ _ _ F Ew). destruct (node_info lex2 w) as [wi|]; [|reflexivity]. cbn [bind].
  destruct (treated_as_digit _ _ _ _); [reflexivity|]. destruct (js_begin st) as [b|]; [|reflexivity]. destruct (p_done (js_parser st)) as [ok p'].
  destruct ok; [now rewrite jn_concat_agree|]. destruct (get (js_path st) (js_next st - 1)) as [v|] eqn:Ev; [|reflexivity]. cbn [bind].
  rewrite (agreed_get _ _ _ F Ev). destruct (node_info lex2 v); [|reflexivity]. cbn [bind]. destruct (trailing _ _); [|reflexivity]. now rewrite jn_concat_agree.
Qed.
Lemma jn_step_agreed cfg it st st' : Forall agreed (js_path st) -> jn_step lex1 cfg it st = Ok st' -> Forall agreed (js_path st').
Proof.
  intros F H. unfold jn_step in H. apply bind_ok in H as (w & _ & H). apply bind_ok in H as (cs & _ & H). apply bind_ok in H as (wi & _ & H). cbv zeta in H.
  destruct (treated_as_digit _ _ _ _).
  - destruct (match js_begin st with Some b => (b, js_parser st) | None => (js_next st, p_clear (js_parser st)) end) as [b p].
    destruct (p_feed p _) as [ok p']. destruct ok; [now injection H as <-|]. destruct (p_error p'); now injection H as <-.
  - destruct (js_begin st) as [b|]; [|now injection H as <-]. destruct (p_done (js_parser st)) as [ok p']. destruct ok.
    + apply bind_ok in H as (q & Hq & H). injection H as <-. eapply jn_concat_agreed; eauto.
    + apply bind_ok in H as (v & _ & H). apply bind_ok in H as (vi & _ & H). destruct (trailing _ _); [|now injection H as <-].
      apply bind_ok in H as (q & Hq & H). injection H as <-. eapply jn_concat_agreed; eauto.
Qed.
Lemma jn_finish_agree cfg st : Forall agreed (js_path st) -> jn_finish lex1 cfg st = jn_finish lex2 cfg st.
Proof.
  intros F. unfold jn_finish. destruct (js_begin st) as [b|]; [|reflexivity]. destruct (p_done (js_parser st)) as [ok p']. destruct ok; [now apply jn_concat_agree|].
  destruct (get (js_path st) (length (js_path st) - 1)) as [v|] eqn:Ev; [|reflexivity]. cbn [bind]. rewrite (agreed_get _ _ _ F Ev).
  destruct (node_info lex2 v); [|reflexivity]. cbn [bind]. destruct (trailing _ _); [|reflexivity]. now apply jn_concat_agree.
Qed.
Lemma jn_finish_agreed cfg st q : Forall agreed (js_path st) -> jn_finish lex1 cfg st = Ok q -> Forall agreed q.
Proof.
  intros F H. unfold jn_finish in H. destruct (js_begin st) as [b|]; [|now injection H as <-]. destruct (p_done (js_parser st)) as [ok p'].
  destruct ok; [eapply jn_concat_agreed; eauto|]. apply bind_ok in H as (v & _ & H). apply bind_ok in H as (vi & _ & H).
  destruct (trailing _ _); [|now injection H as <-]. eapply jn_concat_agreed; eauto.
Qed.
Lemma jn_loop_agree cfg it f : forall st, Forall agreed (js_path st) ->
  jn_loop lex1 cfg it f st = jn_loop lex2 cfg it f st /\ forall q, jn_loop lex1 cfg it f st = Ok q -> Forall agreed q.
Proof.
  induction f as [|f IH]; intros st F; cbn [jn_loop]; [split; [reflexivity|discriminate]|].
  destruct (js_next st <? length (js_path st)).
  - rewrite <- (jn_step_agree cfg it st F). destruct (jn_step lex1 cfg it st) as [st'|] eqn:E; [|split; [reflexivity|discriminate]]. cbn [bind].
    apply IH. eapply jn_step_agreed; eauto.
  - split; [now apply jn_finish_agree|]. intros q. now apply jn_finish_agreed.
Qed.

Section lattice.
Variable lat : lattice.
Hypothesis AL : forall b e w, get_minimum_node lat b e = Ok (Some w) -> agreed w.

Lemma concatenate_oov_agree path b e pos : Forall agreed path ->
  concatenate_oov lex1 lat path b e pos = concatenate_oov lex2 lat path b e pos /\ forall q, concatenate_oov lex1 lat path b e pos = Ok q -> Forall agreed q.
Proof.
  intros F. unfold concatenate_oov. destruct (e <=? b); [split; [reflexivity|discriminate]|]. destruct (get path b) as [x|]; [|split; [reflexivity|discriminate]]. cbn [bind].
  destruct (get path (e - 1)) as [y|]; [|split; [reflexivity|discriminate]]. cbn [bind].
  destruct (get_minimum_node lat (w_begin x) (w_end y)) as [[w|]|] eqn:Em; cbn [bind]; [| |split; [reflexivity|discriminate]].
  - split; [reflexivity|]. intros q [= <-]. apply splice_all; [exact F|]. eapply AL; eauto.
  - rewrite <- (agreed_infos _ (slice_forall _ _ b e F)). split; [reflexivity|]. intros q H. apply bind_ok in H as (is & _ & H). injection H as <-.
    apply splice_all; [exact F|]. reflexivity.
Qed.
Lemma kata_loop_agree cfg it f : forall path i, Forall agreed path ->
  kata_loop lex1 cfg it lat f path i = kata_loop lex2 cfg it lat f path i /\ forall q, kata_loop lex1 cfg it lat f path i = Ok q -> Forall agreed q.
Proof.
  induction f as [|f IH]; intros path i F; cbn [kata_loop]; [split; [reflexivity|discriminate]|].
  destruct (length path <=? i); [split; [reflexivity|now intros q [= <-]]|]. destruct (get path i) as [w|]; [|split; [reflexivity|discriminate]]. cbn [bind].
  destruct (kata_trigger cfg it w) as [t|]; [|split; [reflexivity|discriminate]]. cbn [bind]. destruct (negb t); [now apply IH|].
  destruct (kata_begin it path i) as [b0|]; [|split; [reflexivity|discriminate]]. cbn [bind].
  destruct (kata_end it path (S i) (length path - S i)) as [e|]; [|split; [reflexivity|discriminate]]. cbn [bind].
  destruct (skip_nobow it path b0 (e - b0)) as [b|]; [|split; [reflexivity|discriminate]]. cbn [bind].
  destruct (1 <? e - b); [|now apply IH]. destruct (concatenate_oov_agree path b e (jk_pos cfg) F) as (E & A). rewrite <- E.
  destruct (concatenate_oov lex1 lat path b e (jk_pos cfg)) as [q|]; [|split; [reflexivity|discriminate]]. cbn [bind]. apply IH. now apply A.
Qed.

Lemma rewrites_agree rs it : forall path, Forall agreed path ->
  foldM (fun p plugin => plugin it p lat) path (map (rewrite_with lex1) rs) = foldM (fun p plugin => plugin it p lat) path (map (rewrite_with lex2) rs).
Proof.
  induction rs as [|r rs IH]; intros path F; cbn [map foldM]; [reflexivity|].
  assert (H : rewrite_with lex1 r it path lat = rewrite_with lex2 r it path lat /\ forall q, rewrite_with lex1 r it path lat = Ok q -> Forall agreed q).
  { destruct r as [c|c]; cbn [rewrite_with]; [now apply kata_loop_agree|now apply jn_loop_agree]. }
  destruct H as (E & A). rewrite <- E. destruct (rewrite_with lex1 r it path lat) as [q|]; [|reflexivity]. cbn [bind]. apply IH. now apply A.
Qed.
End lattice.
End rewriting.

(** ** Candidates and the lattice *)
Lemma lex_words_agree par1 par2 it i l : Forall (fun x => par1 (fst x) = par2 (fst x)) l -> lex_words par1 it i l = lex_words par2 it i l.
Proof.
  induction 1 as [|(wid & e) l E F IH]; [reflexivity|]. cbn [fst] in E. cbn [lex_words]. rewrite E, IH. reflexivity.
Qed.
Lemma build_agree view eosp bow c1 c2 lat n : (forall i, i < n -> c1 i = c2 i) -> build_lattice view eosp bow c1 lat n = build_lattice view eosp bow c2 lat n.
Proof.
  intros E. unfold build_lattice. assert (H : forall k lat i, i + k <= n -> build_from view bow c1 lat i k = build_from view bow c2 lat i k).
  { induction k as [|k IH]; intros lat' i Hi; cbn [build_from]; [reflexivity|]. unfold build_at. rewrite (E i) by lia.
    destruct (match bow i with Err e => _ | Ok _ => _ end) as [lat2 x]. destruct x; [reflexivity|apply IH; lia]. }
  now rewrite H by lia.
Qed.

(** ** The whole analysis *)
Section settings.
Variables s1 s2 : settings.
Hypothesis G : good_settings s1.
(** The two differ in the dictionaries only. *)
Hypothesis V : s_view s1 = s_view s2.
Hypothesis C : s_category s1 = s_category s2.
Hypothesis L : s_lower s1 = s_lower s2.
Hypothesis N : s_nfkc s1 = s_nfkc s2.
Hypothesis I : s_inputs s1 = s_inputs s2.
Hypothesis O : s_providers s1 = s_providers s2.
Hypothesis R : s_rewriters s1 = s_rewriters s2.
(** The ids that can appear *)
Variable D : Z -> Prop.
Hypothesis DP : forall wid, D wid -> s_params s1 wid = s_params s2 wid.
Hypothesis DI : forall wid, D wid -> s_lexinfo s1 wid = s_lexinfo s2 wid.
Hypothesis DS : forall wid wi, D wid -> s_lexinfo s1 wid = Ok wi -> Forall D (wi_a wi ++ wi_b wi).

Lemma prepare_agree t : run_prepare (shipped s1) t = run_prepare (shipped s2) t.
Proof.
  unfold run_prepare. cbn [shipped cf_category cf_inputs]. rewrite C, I. f_equal. apply map_ext. intros [c|c]; cbn [run_input]; [now rewrite L, N|reflexivity].
Qed.

Lemma info_agree w : (lexical w /\ D (w_id w)) \/ (exists o pos, made_up w o pos) -> agreed (s_lexinfo s1) (s_lexinfo s2) w.
Proof.
  unfold agreed, node_info. intros [((_ & X & _) & H)|(o & pos & _ & _ & wi & X & _)]; rewrite X; [|reflexivity]. now rewrite (DI _ H).
Qed.

Lemma split_agree md p : Forall (fun w => (lexical w /\ D (w_id w)) \/ exists o pos, made_up w o pos) p ->
  split_path (s_lexinfo s1) md p = split_path (s_lexinfo s2) md p.
Proof.
  intros F.
  assert (SN : forall wids b, Forall D wids -> split_nodes (s_lexinfo s1) b wids = split_nodes (s_lexinfo s2) b wids).
  { induction wids as [|x wids IH]; intros b Fx; cbn [split_nodes]; [reflexivity|]. inversion Fx; subst. destruct (lex_node 0 0 0 x) as [n|] eqn:En; [|reflexivity]. cbn [bind].
    assert (A : node_info (s_lexinfo s1) n = node_info (s_lexinfo s2) n).
    { apply info_agree. left. unfold lex_node in En. apply bind_ok in En as (z & Ez & [= <-]). apply to_int_ok in Ez as (-> & _). split; [repeat split|assumption]. }
    rewrite A. destruct (node_info (s_lexinfo s2) n); [|reflexivity]. cbn [bind]. now rewrite IH. }
  assert (S1 : Forall (fun w => split_one (s_lexinfo s1) md w = split_one (s_lexinfo s2) md w) p).
  { eapply Forall_impl; [|exact F]. intros w Hw. unfold split_one. rewrite <- (info_agree w Hw). destruct (node_info (s_lexinfo s1) w) as [wi|] eqn:Ew; [|reflexivity]. cbn [bind].
    destruct (length (match md with ModeA => wi_a wi | _ => wi_b wi end) <=? 1); [reflexivity|]. apply SN.
    unfold node_info in Ew. destruct Hw as [((_ & X & Y) & H)|(o & pos & _ & Y & wi' & X & _ & A & B)]; rewrite Y, X in Ew; cbn [negb] in Ew.
    - apply DS in Ew; [|exact H]. apply Forall_app in Ew as (A & B). destruct md; auto.
    - injection Ew as <-. destruct md; rewrite ?A, ?B; constructor. }
  assert (M : mapM (split_one (s_lexinfo s1) md) p = mapM (split_one (s_lexinfo s2) md) p).
  { clear - S1. induction S1 as [|w p E F IH]; [reflexivity|]. cbn [mapM]. now rewrite E, IH. }
  destruct md; cbn [split_path]; now rewrite ?M.
Qed.

Lemma run_agree lat t md it : usable (shipped s1) lat -> run_prepare (shipped s1) t = Ok it ->
  (forall i, i < length (it_bytes it) -> s_lookup s1 (it_bytes it) i = s_lookup s2 (it_bytes it) i) ->
  (forall i wid e, In (wid, e) (fst (s_lookup s1 (it_bytes it) i)) -> D wid) ->
  run (shipped s1) lat t md = run (shipped s2) lat t md.
Proof.
  intros U Ep LK LD. destruct t as [|c t]; [reflexivity|]. pose proof (shipped_sane s1 G) as S.
  unfold run, tokenize. fold (run_prepare (shipped s1)). fold (run_prepare (shipped s2)).
  change (prepare (cf_category (shipped s1)) (cf_inputs (shipped s1)) (c :: t)) with (run_prepare (shipped s1) (c :: t)).
  change (prepare (cf_category (shipped s2)) (cf_inputs (shipped s2)) (c :: t)) with (run_prepare (shipped s2) (c :: t)).
  rewrite <- prepare_agree, Ep.
  assert (EA : run_analyse (shipped s1) lat it = run_analyse (shipped s2) lat it).
  { unfold run_analyse, analyse. cbn [shipped cf_view cf_lookup cf_params cf_providers]. rewrite <- V, <- O.
    rewrite (build_agree _ _ _ (candidates (s_lookup s1) (s_params s1) (s_providers s1) it) (candidates (s_lookup s2) (s_params s2) (s_providers s1) it)); [reflexivity|].
    intros i Hi. unfold candidates. rewrite <- (LK i Hi). destruct (s_lookup s1 (it_bytes it) i) as [found x0] eqn:EL.
    rewrite (lex_words_agree (s_params s1) (s_params s2)); [reflexivity|]. rewrite Forall_forall. intros (wid & e) Hin. apply DP. apply (LD i wid e). now rewrite EL. }
  change (analyse (cf_view (shipped s1)) eos_parameter (cf_lookup (shipped s1)) (cf_params (shipped s1)) (cf_providers (shipped s1)) lat it) with (run_analyse (shipped s1) lat it).
  change (analyse (cf_view (shipped s2)) eos_parameter (cf_lookup (shipped s2)) (cf_params (shipped s2)) (cf_providers (shipped s2)) lat it) with (run_analyse (shipped s2) lat it).
  rewrite <- EA. destruct (run_analyse (shipped s1) lat it) as [lat1 [p|]] eqn:Ea; [|reflexivity].
  destruct (run_prepare_built (shipped s1) (c :: t) it S) as (bd & _ & _ & B); [discriminate|exact Ep|].
  destruct (analyse_path S B lat lat1 p (usable_clean _ _ S U) Ea) as (_ & F & _).
  destruct (analyse_lists S B lat lat1 _ (usable_clean _ _ S U) Ea) as (LE & LW).
  destruct (analyse_shape S B lat lat1 _ (usable_clean _ _ S U) Ea) as ((_ & _ & SB & _) & _).
  assert (CK : forall w, considered (cfg := shipped s1) (it := it) w -> (lexical w /\ D (w_id w)) \/ exists o pos, made_up w o pos).
  { intros w Hw. destruct (considered_source s1 _ _ _ _ B w Hw) as [(A1 & A2 & _)|(pr & pos & _ & _ & A3)]; [left; split; [exact A1|eapply LD; exact A2]|right; eauto]. }
  assert (E1 : foldM (fun p plugin => plugin it p lat1) p (cf_rewrites (shipped s1)) = foldM (fun p plugin => plugin it p lat1) p (cf_rewrites (shipped s2))).
  { cbn [shipped cf_rewrites]. rewrite <- R. apply rewrites_agree.
    - intros b e w Hw. unfold get_minimum_node in Hw. apply bind_ok in Hw as (ns & Hns & Hw). unfold get_nodes in Hns. apply bind_ok in Hns as (ls & Hls & [= <-]). apply get_ok in Hls.
      assert (Hin : In w (map ln_word ls)).
      { assert (Q : forall r n, In (fold_left (fun m x => if (w_cost x <? w_cost m)%Z then x else m) r n) (n :: r)).
        { clear. induction r as [|x r IH]; intros n; cbn [fold_left]; [now left|]. destruct (IH (if (w_cost x <? w_cost n)%Z then x else n)) as [H|H]; [|right; now right].
          destruct (w_cost x <? w_cost n)%Z; [right; left; exact H|left; exact H]. }
        destruct (filter _ _) as [|n r] eqn:Ef; [discriminate|]. injection Hw as <-. specialize (Q r n). rewrite <- Ef in Q. apply filter_In in Q. apply Q. }
      destruct e as [|e].
      + rewrite SB in Hls. injection Hls as <-. destruct Hin as [<-|[]]. reflexivity.
      + apply info_agree, CK. eapply LW; eauto. lia.
    - eapply Forall_impl; [|exact F]. intros w Hw. apply info_agree, CK, Hw. }
  rewrite <- E1. destruct (foldM _ p (cf_rewrites (shipped s1))) as [p1|] eqn:Ef; [|reflexivity].
  destruct (lat_clear lat1) as [lat2|]; [|reflexivity].
  assert (F1 : Forall (fun w => (lexical w /\ D (w_id w)) \/ exists o pos, made_up w o pos) p1).
  { eapply (path_words s1 G lat (c :: t) lat1 it p p1); eauto; try discriminate. }
  change (cf_lexinfo (shipped s1)) with (s_lexinfo s1). change (cf_lexinfo (shipped s2)) with (s_lexinfo s2). now rewrite (split_agree md p1 F1).
Qed.
End settings.
