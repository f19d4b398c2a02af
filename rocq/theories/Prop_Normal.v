(** Property C96: texts with the same normalised form have the same words. *)
From Coq Require Import String Ascii List ZArith Lia Bool Arith.
From Verif Require Import Base Utf8 M_Builder M_CharCategory M_InputText M_InputPlugins M_Lattice M_Oov M_Tokenizer M_PathRewrite M_Morphemes M_Shipped
  S_Text S_Lattice P_Builder P_InputText P_Lattice P_Tokenizer P_Path P_Config P_Agree Prop_Tokenizer Prop_Shipped Prop_Lattice.
Import ListNotations.
Open Scope list_scope.
Open Scope nat_scope.

(** An input text without the original and the way back to it *)
Definition forget (it : input_text) : input_text :=
  InputText [] (it_mod it) (it_bytes it) [] (it_byte_indexes it) (it_cats it) (it_conts it) (it_bow it).

Lemma fill_indexes k : forall j v1 v2 v2' a1 a2 a2' x y, fill k j v1 v2 a1 a2 = Ok x -> fill k j v1 v2' a1 a2' = Ok y -> fst x = fst y.
Proof.
  induction k as [|k IH]; intros j v1 v2 v2' a1 a2 a2' x y H1 H2; cbn [fill] in *; [injection H1 as <-; injection H2 as <-; reflexivity|].
  apply bind_ok in H1 as (b1 & Hb1 & H1). apply bind_ok in H1 as (b2 & Hb2 & H1). apply bind_ok in H2 as (c1 & Hc1 & H2). apply bind_ok in H2 as (c2 & Hc2 & H2).
  rewrite Hb1 in Hc1. injection Hc1 as <-. eapply IH; eauto.
Qed.
Lemma fill_all_indexes t : forall i m m' j a1 a2 a2' x y, fill_all t i m j a1 a2 = Ok x -> fill_all t i m' j a1 a2' = Ok y -> fst x = fst y.
Proof.
  induction t as [|c t IH]; intros i m m' j a1 a2 a2' x y H1 H2; cbn [fill_all] in *; [injection H1 as <-; injection H2 as <-; reflexivity|].
  apply bind_ok in H1 as (o & _ & H1). apply bind_ok in H1 as (((j1 & b1) & b2) & F1 & H1). apply bind_ok in H2 as (o' & _ & H2). apply bind_ok in H2 as (((j2 & c1) & c2) & F2 & H2).
  pose proof (fill_indexes _ _ _ _ _ _ _ _ _ _ F1 F2) as E. cbn [fst] in E. injection E as <- <-. eapply IH; eauto.
Qed.
Lemma build_forget category bd bd' it it' : b_mod bd = b_mod bd' -> build category bd = Ok it -> build category bd' = Ok it' -> forget it = forget it'.
Proof.
  intros E H1 H2. unfold build in H1, H2. rewrite <- E in H2. cbv zeta in H1, H2.
  apply bind_ok in H1 as (bs & Eb & H1). rewrite Eb in H2. cbn [bind] in H2.
  apply bind_ok in H1 as ((bi & off) & F1 & H1). apply bind_ok in H2 as ((bi2 & off2) & F2 & H2).
  pose proof (fill_all_indexes _ _ _ _ _ _ _ _ _ _ F1 F2) as EI. cbn [fst] in EI. subst bi2.
  apply bind_ok in H1 as (bi' & S1 & H1). rewrite S1 in H2. cbn [bind] in H2.
  apply bind_ok in H1 as (l1 & _ & H1). apply bind_ok in H2 as (l2 & _ & H2).
  apply bind_ok in H1 as (o1 & _ & H1). apply bind_ok in H2 as (o2 & _ & H2).
  apply bind_ok in H1 as (cs & C1 & H1). rewrite C1 in H2. cbn [bind] in H2.
  apply bind_ok in H1 as (bw & B1 & H1). rewrite B1 in H2. cbn [bind] in H2.
  injection H1 as <-. injection H2 as <-. reflexivity.
Qed.

(** What the analysis and the path rewriting plugins see *)
Lemma bind_same {A B} (m : res A) (f g : A -> res B) : (forall y, f y = g y) -> bind m f = bind m g.
Proof. intros H. destruct m; cbn; auto. Qed.
Lemma mapM_same {A B} (f g : A -> res B) l : (forall a, f a = g a) -> mapM f l = mapM g l.
Proof. intros H. induction l as [|x l IH]; [reflexivity|]. cbn [mapM]. rewrite H. apply bind_same. intros y. now rewrite IH. Qed.

Lemma wcl_forget it index k : forall i, wcl_loop it index i k = wcl_loop (forget it) index i k.
Proof. induction k as [|k IH]; intros i; cbn [wcl_loop]; [reflexivity|]. change (can_bow (forget it) i) with (can_bow it i). apply bind_same. intros [|]; [reflexivity|apply IH]. Qed.
Lemma mecab_forget it offset oovs ll k : forall i, mecab_lengths it offset oovs ll i k = mecab_lengths (forget it) offset oovs ll i k.
Proof.
  induction k as [|k IH]; intros i; cbn [mecab_lengths]; [reflexivity|]. change (get_code_points_offset_length (forget it) offset i) with (get_code_points_offset_length it offset i).
  apply bind_same. intros sub. destruct (_ <? _)%Z; [reflexivity|]. change (get_substring (forget it) (Z.of_nat offset) (Z.of_nat (offset + sub))) with (get_substring it (Z.of_nat offset) (Z.of_nat (offset + sub))).
  apply bind_same. intros t. now rewrite IH.
Qed.
Lemma oov_forget p it i h : get_oov p it i h = get_oov p (forget it) i h.
Proof.
  unfold get_oov. destruct p as [c|c]; cbn [provide_oov].
  - unfold simple_provide, get_word_candidate_length. rewrite (wcl_forget it). reflexivity.
  - unfold mecab_provide. change (get_cont_length (forget it) i) with (get_cont_length it i). destruct (get_cont_length it i) as [len|]; [|reflexivity]. cbn [bind].
    destruct (len <? 1); [reflexivity|]. change (get_cats_at (forget it) i) with (get_cats_at it i). destruct (get_cats_at it i) as [cs|]; [|reflexivity]. cbn [bind].
    rewrite (mapM_same (mecab_category c it i len h) (mecab_category c (forget it) i len h)); [reflexivity|]. intros ct. unfold mecab_category.
    destruct (mc_info c ct); [|reflexivity]. destruct (mc_oovs c ct); [|reflexivity]. destruct (_ && _); [reflexivity|].
    change (get_substring (forget it) (Z.of_nat i) (Z.of_nat (i + len))) with (get_substring it (Z.of_nat i) (Z.of_nat (i + len))). apply bind_same. intros g. cbv zeta. now rewrite (mecab_forget it).
Qed.
Lemma lex_forget params it i l : lex_words params it i l = lex_words params (forget it) i l.
Proof.
  induction l as [|(wid & e) l IH]; cbn [lex_words]; [reflexivity|]. change (can_bow (forget it) e) with (can_bow it e). change (it_bytes (forget it)) with (it_bytes it).
  rewrite IH. reflexivity.
Qed.
Lemma oovs_forget ps it i : forall h, oov_words ps it i h = oov_words ps (forget it) i h.
Proof. induction ps as [|p ps IH]; intros h; cbn [oov_words]; [reflexivity|]. rewrite <- (oov_forget p it). destruct (get_oov p it i h) as [ns|]; [|reflexivity]. now rewrite IH. Qed.
Lemma candidates_forget lookup params ps it i : candidates lookup params ps it i = candidates lookup params ps (forget it) i.
Proof.
  unfold candidates, default_oov. change (it_bytes (forget it)) with (it_bytes it). destruct (lookup (it_bytes it) i) as [found x0]. rewrite <- (lex_forget params it). change (get_cats_at (forget it) i) with (get_cats_at it i).
  destruct (lex_words params it i found) as [ws [x|]]; [reflexivity|]. destruct x0; [reflexivity|]. destruct (get_cats_at it i); [|reflexivity]. rewrite <- (oovs_forget ps it).
  destruct (rev ps) as [|p r]; [reflexivity|]. rewrite <- (oov_forget p it). reflexivity.
Qed.
Lemma analyse_forget cfg lat it : run_analyse cfg lat it = run_analyse cfg lat (forget it).
Proof.
  unfold run_analyse, analyse. change (can_bow (forget it)) with (can_bow it). change (it_bytes (forget it)) with (it_bytes it).
  rewrite (build_agree _ _ _ _ (candidates (cf_lookup cfg) (cf_params cfg) (cf_providers cfg) (forget it))); [reflexivity|]. intros i _. apply candidates_forget.
Qed.
Lemma kata_begin_forget it path i : kata_begin it path i = kata_begin (forget it) path i.
Proof. induction i as [|i IH]; cbn [kata_begin]; [reflexivity|]. apply bind_same. intros w. change (is_katakana (forget it) w) with (is_katakana it w). apply bind_same. intros [|]; [exact IH|reflexivity]. Qed.
Lemma kata_end_forget it path k : forall e, kata_end it path e k = kata_end (forget it) path e k.
Proof. induction k as [|k IH]; intros e; cbn [kata_end]; [reflexivity|]. apply bind_same. intros w. change (is_katakana (forget it) w) with (is_katakana it w). apply bind_same. intros [|]; [apply IH|reflexivity]. Qed.
Lemma skip_forget it path k : forall b, skip_nobow it path b k = skip_nobow (forget it) path b k.
Proof. induction k as [|k IH]; intros b; cbn [skip_nobow]; [reflexivity|]. apply bind_same. intros w. change (can_oov_bow (forget it) w) with (can_oov_bow it w). apply bind_same. intros [|]; [reflexivity|apply IH]. Qed.
Lemma kata_forget lexinfo cfg it lat f : forall path i, kata_loop lexinfo cfg it lat f path i = kata_loop lexinfo cfg (forget it) lat f path i.
Proof.
  induction f as [|f IH]; intros path i; cbn [kata_loop]; [reflexivity|]. destruct (_ <=? _); [reflexivity|]. apply bind_same. intros w.
  change (kata_trigger cfg (forget it) w) with (kata_trigger cfg it w). apply bind_same. intros [|]; cbn [negb]; [|apply IH].
  rewrite <- (kata_begin_forget it). apply bind_same. intros b0. rewrite <- (kata_end_forget it). apply bind_same. intros e. rewrite <- (skip_forget it). apply bind_same. intros b.
  destruct (_ <? _); [|apply IH]. apply bind_same. intros path'. apply IH.
Qed.
Lemma jn_forget lexinfo cfg it f : forall st, jn_loop lexinfo cfg it f st = jn_loop lexinfo cfg (forget it) f st.
Proof.
  induction f as [|f IH]; intros st; cbn [jn_loop]; [reflexivity|]. destruct (_ <? _); [|reflexivity]. change (jn_step lexinfo cfg (forget it) st) with (jn_step lexinfo cfg it st). apply bind_same. intros st'. apply IH.
Qed.
Lemma rewrite_forget lexinfo r it p lat : rewrite_with lexinfo r it p lat = rewrite_with lexinfo r (forget it) p lat.
Proof. destruct r; cbn [rewrite_with]; [apply kata_forget|apply jn_forget]. Qed.

(** ** C96 *)
(** Two results with the same words, each over its own text; or the same error *)
Definition same_words (it1 it2 : input_text) (r1 r2 : res (option (input_text * list wnode))) : Prop :=
  (exists p, r1 = Ok (Some (it1, p)) /\ r2 = Ok (Some (it2, p))) \/ exists e, r1 = Err e /\ r2 = Err e.

Lemma run_forget s1 s2 lat t1 t2 md it1 it2 :
  s_view s1 = s_view s2 -> s_lookup s1 = s_lookup s2 -> s_params s1 = s_params s2 -> s_lexinfo s1 = s_lexinfo s2 -> s_providers s1 = s_providers s2 -> s_rewriters s1 = s_rewriters s2 ->
  t1 <> [] -> t2 <> [] -> run_prepare (shipped s1) t1 = Ok it1 -> run_prepare (shipped s2) t2 = Ok it2 -> forget it1 = forget it2 ->
  same_words it1 it2 (snd (run (shipped s1) lat t1 md)) (snd (run (shipped s2) lat t2 md)).
Proof.
  intros V L P I O R N1 N2 P1 P2 F. unfold run, tokenize. destruct t1 as [|c1 t1]; [congruence|]. destruct t2 as [|c2 t2]; [congruence|].
  fold (run_prepare (shipped s1)). fold (run_prepare (shipped s2)).
  change (prepare (cf_category (shipped s1)) (cf_inputs (shipped s1)) (c1 :: t1)) with (run_prepare (shipped s1) (c1 :: t1)).
  change (prepare (cf_category (shipped s2)) (cf_inputs (shipped s2)) (c2 :: t2)) with (run_prepare (shipped s2) (c2 :: t2)). rewrite P1, P2.
  change (analyse (cf_view (shipped s1)) eos_parameter (cf_lookup (shipped s1)) (cf_params (shipped s1)) (cf_providers (shipped s1)) lat it1) with (run_analyse (shipped s1) lat it1).
  change (analyse (cf_view (shipped s2)) eos_parameter (cf_lookup (shipped s2)) (cf_params (shipped s2)) (cf_providers (shipped s2)) lat it2) with (run_analyse (shipped s2) lat it2).
  assert (EA : run_analyse (shipped s1) lat it1 = run_analyse (shipped s2) lat it2).
  { rewrite (analyse_forget _ _ it1), (analyse_forget _ _ it2), F. unfold run_analyse. cbn [shipped cf_view cf_lookup cf_params cf_providers]. now rewrite V, L, P, O. }
  rewrite <- EA. destruct (run_analyse (shipped s1) lat it1) as [lat1 [p|x]]; [|right; exists x; auto].
  assert (ER : foldM (fun p plugin => plugin it1 p lat1) p (cf_rewrites (shipped s1)) = foldM (fun p plugin => plugin it2 p lat1) p (cf_rewrites (shipped s2))).
  { cbn [shipped cf_rewrites]. rewrite <- R, <- I. clear - F. revert p. induction (s_rewriters s1) as [|r rs IH]; intros p; [reflexivity|]. cbn [map foldM]. rewrite (rewrite_forget _ _ it1), (rewrite_forget _ _ it2), F. apply bind_same. intros y. apply IH. }
  rewrite <- ER. destruct (foldM _ p (cf_rewrites (shipped s1))) as [p1|x]; [|right; exists x; auto].
  destruct (lat_clear lat1) as [lat2|x]; [|right; exists x; auto]. cbn [shipped cf_lexinfo]. rewrite <- I.
  destruct (split_path (s_lexinfo s1) md p1) as [p2|x]; [left; exists p2; auto|right; exists x; auto].
Qed.
Lemma prepared_forget cfg1 cfg2 t1 t2 it1 it2 : cf_category cfg1 = cf_category cfg2 -> run_prepare cfg1 t1 = Ok it1 -> run_prepare cfg2 t2 = Ok it2 -> it_mod it1 = it_mod it2 -> forget it1 = forget it2.
Proof.
  intros C P1 P2 M. unfold run_prepare, prepare in P1, P2. apply bind_ok in P1 as (b1 & _ & P1). apply bind_ok in P2 as (b2 & _ & P2). rewrite <- C in P2.
  assert (MB : forall cat b it, build cat b = Ok it -> it_mod it = b_mod b).
  { intros cat b it H. unfold build in H. cbv zeta in H. apply bind_ok in H as (? & _ & H). apply bind_ok in H as ((? & ?) & _ & H). repeat (apply bind_ok in H as (? & _ & H)). injection H as <-. reflexivity. }
  eapply build_forget; [|exact P1|exact P2]. rewrite <- (MB _ _ _ P1), <- (MB _ _ _ P2). exact M.
Qed.

(** Texts that the input text plugins turn into the same text have the same words, whatever was
    analysed before. *)
Theorem C96_same s lat1 lat2 t1 t2 md it1 it2 :
  good_settings s -> usable (shipped s) lat1 -> usable (shipped s) lat2 -> t1 <> [] -> t2 <> [] ->
  run_prepare (shipped s) t1 = Ok it1 -> run_prepare (shipped s) t2 = Ok it2 -> it_mod it1 = it_mod it2 ->
  same_words it1 it2 (snd (run (shipped s) lat1 t1 md)) (snd (run (shipped s) lat2 t2 md)).
Proof.
  intros G U1 U2 N1 N2 P1 P2 M. rewrite (C20_shipped_partial s lat1 t1 md G U1), (C20_shipped_partial s lat2 t2 md G U2).
  apply run_forget; auto. eapply prepared_forget; eauto.
Qed.
Print Assumptions C96_same.

(** The input text plugins have no other effect than on the text: a tokenizer without them finds
    the same words in the text that they make. *)
Definition without_inputs (s : settings) : settings :=
  Settings (s_view s) (s_category s) (s_lookup s) (s_params s) (s_lexinfo s) (s_lower s) (s_nfkc s) [] (s_providers s) (s_rewriters s).
Lemma without_good s : good_settings s -> good_settings (without_inputs s).
Proof. intros [G1 G2 G3 G4 G5 G6]. constructor; cbn [without_inputs s_category s_lookup s_inputs s_lower s_nfkc In]; auto; contradiction. Qed.
Theorem C96_plugins s lat1 lat2 t md it :
  good_settings s -> usable (shipped s) lat1 -> usable (shipped (without_inputs s)) lat2 -> t <> [] -> run_prepare (shipped s) t = Ok it ->
  exists it0, run_prepare (shipped (without_inputs s)) (it_mod it) = Ok it0 /\ it_mod it0 = it_mod it /\ it_orig it0 = it_mod it /\
    same_words it it0 (snd (run (shipped s) lat1 t md)) (snd (run (shipped (without_inputs s)) lat2 (it_mod it) md)).
Proof.
  intros G U1 U2 N P. pose proof (without_good s G) as G0. pose proof (shipped_sane _ G) as S. pose proof (shipped_sane _ G0) as S0.
  destruct (run_prepare_built _ t it S N P) as (bd & WF & _ & B). pose proof (bt_mod B) as M.
  assert (NM : it_mod it <> []).
  { intros X. rewrite M in X. destruct WF as (_ & PM). rewrite X in PM. destruct PM as (_ & P0 & P1 & _). cbn [length] in P1. rewrite P0 in P1. injection P1 as P1. destruct t; [congruence|discriminate]. }
  destruct (build_spec (s_category s) (it_mod it) (builder_init (it_mod it))) as (it0 & E0 & B0).
  - apply rewritten_wf. constructor.
  - cbn [builder_init b_mod]. rewrite M. apply (bt_scalar B).
  - intros c _. apply (gs_category _ G).
  - cbn [builder_init b_mod] in B0. exists it0. split; [exact E0|]. split; [apply (bt_mod B0)|]. split; [apply (bt_orig B0)|].
    rewrite (C20_shipped_partial s lat1 t md G U1), (C20_shipped_partial _ lat2 (it_mod it) md G0 U2).
    apply run_forget; auto. refine (prepared_forget (shipped s) (shipped (without_inputs s)) t (it_mod it) it it0 eq_refl P E0 _). symmetry. apply (bt_mod B0).
Qed.
Print Assumptions C96_plugins.

(** What it means for the morphemes: all that they answer but where they are in the original. *)
Corollary C96_morphemes it1 it2 r1 r2 x1 x2 lexinfo i : same_words it1 it2 r1 r2 -> r1 = Ok x1 -> r2 = Ok x2 ->
  let l1 := morphemes_of x1 in let l2 := morphemes_of x2 in
  ml_len l1 = ml_len l2 /\ ml_word_info lexinfo l1 i = ml_word_info lexinfo l2 i /\ ml_word_id l1 i = ml_word_id l2 i /\
  ml_dictionary_id l1 i = ml_dictionary_id l2 i /\ ml_is_oov l1 i = ml_is_oov l2 i.
Proof. intros [(p & -> & ->)|(e & -> & _)] [= <-] [= <-]. repeat split. Qed.
Print Assumptions C96_morphemes.

(** ** The hypotheses are met *)
(** Runs of the sound mark ー become one; "aーーb" and "aーb" both become "aーb".  The dictionary
    has "a" and "b"; ー is unknown. *)
Definition mark_settings : settings :=
  Settings toy_view (fun _ => [DEFAULT]) toy_lookup toy_params (fun _ => Err EKey) (fun c => [c]) (fun t => t)
    [SoundMarks (PsmCfg [0x30FC] [0x30FC])]%Z [toy_simple] [].
Example C96_nonvacuous :
  good_settings mark_settings /\
  exists it1 it2 p, run_prepare (shipped mark_settings) [97; 0x30FC; 0x30FC; 98]%Z = Ok it1 /\ run_prepare (shipped mark_settings) [97; 0x30FC; 98]%Z = Ok it2 /\
    it_mod it1 = [97; 0x30FC; 98]%Z /\ it_mod it2 = it_mod it1 /\
    snd (run (shipped mark_settings) new_lattice [97; 0x30FC; 0x30FC; 98]%Z ModeC) = Ok (Some (it1, p)) /\
    snd (run (shipped mark_settings) new_lattice [97; 0x30FC; 98]%Z ModeC) = Ok (Some (it2, p)) /\
    map (fun w => (w_begin w, w_end w, w_id w, w_oov w)) p = [(0, 1, 0%Z, false); (1, 4, 0%Z, true); (4, 5, 2%Z, false)] /\
    ml_surface (Morphemes (Some it1) p) 1 = Ok [0x30FC; 0x30FC]%Z /\ ml_surface (Morphemes (Some it2) p) 1 = Ok [0x30FC]%Z.
Proof.
  split.
  - constructor; cbn [mark_settings s_category s_lookup s_inputs s_lower s_nfkc In]; try discriminate; auto.
    + exact toy_lookup_range.
    + intros c [H|[]]. discriminate H.
    + intros c [H|[]]. injection H as <-. exists 0x30FC%Z. reflexivity.
  - eexists _, _, _. repeat (split; [vm_compute; reflexivity|]). vm_compute. reflexivity.
Qed.
Print Assumptions C96_nonvacuous.
