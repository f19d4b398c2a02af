(** C20, C21, C23-C25 and C63 for tokenizers configured with the plugins that come with
    SudachiPy. *)
From Coq Require Import List ZArith Lia Bool Arith.
From Verif Require Import Base Utf8 M_Builder M_InputText M_InputPlugins M_Lattice M_Oov M_Tokenizer M_Morphemes
  M_NumericParser M_PathRewrite M_Shipped S_Text S_Plugins S_Lattice S_Numeric S_Rewrite
  P_Builder P_InputText P_Accessors P_Plugins P_Oov P_Lattice P_Tokenizer P_Path P_Config P_History P_Morphemes P_Total
  P_Rewrite P_RewriteNum P_RewriteTerm P_RewriteTile
  Prop_Text Prop_Plugins Prop_Lattice Prop_Tokenizer Prop_Total Prop_Rewrite.
Import ListNotations.
Open Scope nat_scope.

(** What is asked of the settings: every character has a category (C13), rewrite.def has
    been read without an error, the replacement symbol of the sound marks is one character,
    lower() and NFKC make nothing empty, and lookup finds words inside the text (C37). *)
Record good_settings (s : settings) : Prop := {
  gs_category : forall c, s_category s c <> [];
  gs_lookup : forall bs i wid e, In (wid, e) (fst (s_lookup s bs i)) -> i < e <= length bs;
  gs_rewrite_def : forall c, In (DefaultInput c) (s_inputs s) -> exists lines, read_rewrite_lists lines = Ok c;
  gs_symbol : forall c, In (SoundMarks c) (s_inputs s) -> exists sym, psm_symbol c = [sym];
  gs_lower : forall c, s_lower s c <> [];
  gs_nfkc : forall t, t <> [] -> s_nfkc s t <> [];
}.

Lemma shipped_input s p t bd : good_settings s -> In p (s_inputs s) -> rewritten t bd ->
  exists bd', run_input s p bd = Ok bd' /\ rewritten t bd' /\
    match p with
    | DefaultInput c => normalised (d_map c) (fun ch => if in_set (s_lower s ch) (d_ignore c) then s_lower s ch else s_nfkc s (s_lower s ch))
        (b_mod bd) (b_mod bd')
    | SoundMarks c => collapsed (fun ch => In ch (psm_set c)) (psm_symbol c) (b_mod bd) (b_mod bd')
    end.
Proof.
  intros G Hp R. destruct p as [c|c]; cbn [run_input].
  - destruct (gs_rewrite_def _ G c Hp) as (lines & El).
    destruct (default_rewrite_spec (s_lower s) (s_nfkc s) (gs_lower _ G) (gs_nfkc _ G) c t bd (read_rewrite_lists_ok _ _ El) R) as (bd' & H).
    exists bd'. tauto.
  - destruct (gs_symbol _ G c Hp) as (sym & Es). destruct (psm_rewrite_spec c sym Es t bd R) as (bd' & E & R' & C).
    exists bd'. rewrite Es. auto.
Qed.

Lemma shipped_sane s : good_settings s -> sane (shipped s).
Proof.
  intros G. constructor; cbn [shipped cf_category cf_inputs cf_lookup].
  - apply (gs_category _ G).
  - intros p Hp t bd bd' R E. apply in_map_iff in Hp as (q & <- & Hq).
    destruct (shipped_input s q t bd G Hq R) as (b & Eb & Rb & _). rewrite E in Eb. now injection Eb as <-.
  - apply (gs_lookup _ G).
Qed.

Lemma shipped_rewrites s : good_rewrites (shipped s).
Proof. intros q Hq. apply in_map_iff in Hq as (r & <- & _). apply rewriter_good. Qed.

(** ** C20, C23, C24, C25 without assumptions on the plugins *)
Theorem C20_shipped_partial s lat t m :
  good_settings s -> usable (shipped s) lat ->
  snd (run (shipped s) lat t m) = snd (run (shipped s) new_lattice t m).
Proof. intros G U. apply C20_history_independent_partial; auto using shipped_sane, shipped_rewrites. Qed.
Print Assumptions C20_shipped_partial.

Theorem C23_shipped s lat t lat' r :
  good_settings s -> usable (shipped s) lat ->
  run (shipped s) lat t ModeC = (lat', Ok r) ->
  let l := morphemes_of r in
  ml_str l = Ok t /\
  forall i, i < ml_len l -> exists b e, ml_begin l i = Ok b /\ ml_end l i = Ok e /\ b <= e <= length t /\
    ml_surface l i = Ok (slice t b e) /\
    (S i < ml_len l -> ml_begin l (S i) = Ok e) /\ (i = 0 -> b = 0) /\ (S i = ml_len l -> e = length t).
Proof.
  intros G U E. exact (C23_surfaces_concatenate (shipped s) lat t lat' r (shipped_sane _ G) (shipped_rewrites s) U E).
Qed.
Print Assumptions C23_shipped.

Theorem C24_shipped_partial s lat t m lat' latc r rc :
  good_settings s -> usable (shipped s) lat -> m <> ModeC ->
  run (shipped s) lat t ModeC = (latc, Ok rc) -> Forall (fits (s_lexinfo s) m) (ml_path (morphemes_of rc)) ->
  run (shipped s) lat t m = (lat', Ok r) ->
  ml_str (morphemes_of r) = Ok t /\
  forall i, i < ml_len (morphemes_of r) -> exists b e, ml_begin (morphemes_of r) i = Ok b /\
    ml_end (morphemes_of r) i = Ok e /\ b <= e <= length t /\ ml_surface (morphemes_of r) i = Ok (slice t b e).
Proof.
  intros G U Hm EC HF E.
  exact (C24_split_coverage_partial (shipped s) lat t m lat' latc r rc (shipped_sane _ G) (shipped_rewrites s) U Hm EC HF E).
Qed.
Print Assumptions C24_shipped_partial.

Theorem C25_shipped s lat lat2 t m latc rc :
  good_settings s -> usable (shipped s) lat -> usable (shipped s) lat2 -> m <> ModeC ->
  run (shipped s) lat t ModeC = (latc, Ok rc) ->
  let l := morphemes_of rc in
  match mapM (ml_split (s_lexinfo s) l m) (ml_iter l), snd (run (shipped s) lat2 t m) with
  | Ok parts, Ok r => morphemes_of r = Morphemes (ml_text l) (concat (map ml_path parts))
  | Err e, Err e' => e = e'
  | _, _ => False
  end.
Proof.
  intros G U U2 Hm E.
  exact (C25_split_of_C (shipped s) lat lat2 t m latc rc (shipped_sane _ G) (shipped_rewrites s) U U2 Hm E).
Qed.
Print Assumptions C25_shipped.

(** ** C21 *)
(** Preparation succeeds: nothing in the settings turns a text that can be encoded into one
    that cannot. *)
Record scalar_settings (s : settings) : Prop := {
  ss_map : forall c k v, In (DefaultInput c) (s_inputs s) -> In (k, v) (d_map c) -> scalar_text v;
  ss_symbol : forall c, In (SoundMarks c) (s_inputs s) -> scalar_text (psm_symbol c);
  ss_lower : forall c, is_scalar c = true -> scalar_text (s_lower s c);
  ss_nfkc : forall t, scalar_text t -> scalar_text (s_nfkc s t);
}.

Lemma scalar_app a b : scalar_text (a ++ b) <-> scalar_text a /\ scalar_text b.
Proof. unfold scalar_text. apply Forall_app. Qed.

Lemma normalised_scalar entries out t o : normalised entries out t o ->
  (forall k v, In (k, v) entries -> scalar_text v) -> (forall c, is_scalar c = true -> scalar_text (out c)) ->
  scalar_text t -> scalar_text o.
Proof.
  intros H He Ho. induction H as [|k v t o Hin _ _ _ H IH|c t o _ H IH]; intros Hs; [constructor| |].
  - apply scalar_app in Hs as (_ & Hs). apply scalar_app. eauto.
  - inversion Hs as [|? ? Hc Hs']; subst. apply scalar_app. auto.
Qed.

Lemma collapsed_scalar mark sym t o : collapsed mark sym t o -> scalar_text sym -> scalar_text t -> scalar_text o.
Proof.
  intros H Hy. induction H as [|c t o _ H IH|r t o Hr _ _ H IH]; intros Hs; [constructor| |].
  - inversion Hs; subst. constructor; auto. now apply IH.
  - apply scalar_app in Hs as (Hr' & Hs). apply scalar_app. split; auto. destruct r as [|c [|d r]]; auto.
Qed.

Lemma shipped_prepare s t : good_settings s -> scalar_settings s -> scalar_text t ->
  exists bd it, edited t bd /\ scalar_text (b_mod bd) /\ build (s_category s) bd = Ok it /\ run_prepare (shipped s) t = Ok it.
Proof.
  intros G SS Ht. unfold run_prepare, prepare. cbn [shipped cf_inputs cf_category].
  assert (H : forall ps bd, (forall p, In p ps -> In p (s_inputs s)) -> rewritten t bd -> scalar_text (b_mod bd) ->
     exists bd', foldM (fun bd p => p bd) bd (map (run_input s) ps) = Ok bd' /\ rewritten t bd' /\ scalar_text (b_mod bd')).
  { induction ps as [|p ps IH]; intros bd Hin R Hs; cbn [map foldM]; [eauto|].
    destruct (shipped_input s p t bd G (Hin p (or_introl eq_refl)) R) as (bd1 & -> & R1 & N). cbn [bind].
    apply IH; auto; [intros; apply Hin; now right|]. pose proof (Hin p (or_introl eq_refl)) as Hp. destruct p as [c|c].
    - eapply normalised_scalar; eauto; [intros k v; now apply (ss_map _ SS)|].
      intros ch Hc. cbn beta. destruct (in_set _ _); [now apply (ss_lower _ SS)|]. now apply (ss_nfkc _ SS), (ss_lower _ SS).
    - eapply collapsed_scalar; eauto. now apply (ss_symbol _ SS). }
  destruct (H (s_inputs s) (builder_init t) (fun p Hp => Hp)) as (bd & -> & R & Hs); [constructor|exact Ht|]. cbn [bind].
  destruct (build_spec (s_category s) t bd (rewritten_wf _ _ R) Hs (fun c _ => gs_category _ G c)) as (it & Eb & _).
  exists bd, it. auto using rewritten_edited.
Qed.

(** The word infos exist; the words of digits have no separator in their normalised form. *)
Definition has_infos (s : settings) : Prop :=
  forall bs i wid e, In (wid, e) (fst (s_lookup s bs i)) -> exists wi, s_lexinfo s wid = Ok wi.
Definition plain_digits (s : settings) : Prop :=
  (forall c, In NUMERIC (s_category s c) \/ In KANJINUMERIC (s_category s c) -> c <> comma_char /\ c <> point_char) /\
  (forall t bs i j wid wi, encode t = Ok bs -> i < j <= length t -> In (wid, char_start t j) (fst (s_lookup s bs (char_start t i))) -> s_lexinfo s wid = Ok wi ->
     Forall (fun c => In NUMERIC (s_category s c)) (slice t i j) \/ Forall (fun c => In KANJINUMERIC (s_category s c)) (slice t i j) ->
     ~ In comma_char (wi_norm wi) /\ ~ In point_char (wi_norm wi)).
(** The numeric plugin comes at most once and before the katakana plugins. *)
Definition numbers_first (s : settings) : Prop :=
  exists ks, s_rewriters s = map JoinKatakana ks \/ exists c, s_rewriters s = JoinNumeric c :: map JoinKatakana ks.

Lemma joined_all R rest (Q : wnode -> Prop) p q : joined R rest p q ->
  (forall g after w, R g after w -> 0 < length g -> w_begin w < w_end w -> Q w) ->
  forall b e, tiles b (map to_step p) e -> Forall Q p -> Forall Q q.
Proof.
  intros J HR. induction J as [|w p q J IH|f g l w p q Hf Hl Wb We HRg J IH]; intros b e T F; [constructor| |].
  - inversion F; subst. cbn [map tiles to_step s_begin s_end] in T. destruct T as (_ & _ & T). constructor; eauto.
  - rewrite Forall_app in F. destruct F as (_ & F). rewrite map_app in T. apply tiles_app_iff in T as (m & T1 & T2).
    assert (Hg : g <> []) by (intros ->; discriminate). constructor; eauto.
    eapply HR; eauto; [destruct g; [congruence|cbn; lia]|].
    rewrite Wb, We, (tiles_hd _ _ _ _ T1 Hf), (tiles_last _ _ _ _ T1 Hl). eapply tiles_ne; eauto. destruct g; [congruence|discriminate].
Qed.

Section rewriting.
Variable s : settings.
Hypothesis G : good_settings s.
Context {t orig : text} {m2o : list nat} {it : input_text}.
Variable B : built t orig m2o (map (s_category s) t) it.
Notation n := (length (it_bytes it)).

Lemma cats_range_shared i j cs c : i < j <= length t -> get_cats_range it (char_start t i) (char_start t j) = Ok cs ->
  In c cs -> shared (map (s_category s) t) i j c.
Proof.
  intros Hij E Hc. destruct (cont_length B (char_start t i) i) as (a & e & A1 & A2 & A3 & A4 & A5).
  { apply in_char_start. lia. }
  destruct (cats_range_spec B i j a e) as (cs' & E' & Hin & Hout); auto; try lia.
  rewrite E in E'. injection E' as <-. destruct (le_lt_dec j e); [now apply Hin|]. rewrite Hout in Hc by auto. destruct Hc.
Qed.

(** A considered word is a dictionary word or made of the characters it spans. *)
Lemma considered_kind w : considered (cfg := shipped s) (it := it) w ->
  (exists wid e l r c, In (wid, e) (fst (s_lookup s (it_bytes it) (w_begin w))) /\ w = WNode (w_begin w) e l r c wid false true None /\
     exists i j, i < j <= length t /\ w_begin w = char_start t i /\ e = char_start t j) \/
  (exists k j l r c ps, k < j <= length t /\ w = span_word (t := t) l r c ps k j).
Proof.
  intros (H1 & H2 & H3). pose proof (bow_start B _ H2) as (k & Hk & Ek).
  apply candidates_sound in H3 as [(wid & e & l & r & c & Hin & _ & Hbo & _ & Ew)|(p & h & ns & Hp & Hg & Hw)].
  - left. exists wid, e, l, r, c. split; [exact Hin|]. split; [rewrite Ew at 1; reflexivity|].
    destruct (gs_lookup _ G _ _ _ _ Hin) as (Lt & Le). assert (X : exists j, j <= length t /\ e = char_start t j).
    { destruct (Nat.eq_dec e n) as [->|N]; [exists (length t); split; [lia|symmetry; apply (len_bytes B)]|]. destruct (bow_start B e) as (j & Hj & Ej); [apply Hbo; lia|]. exists j. split; [lia|exact Ej]. }
    destruct X as (j & Hj & Ej). exists k, j. split; [|auto]. split; [|exact Hj]. apply char_start_lt_inv with (t := t). lia.
  - right. rewrite Ek in Hg. destruct (get_oov_span B p h ns k w Hk Hg Hw) as (j & l & r & c & ps & Hj & Ew & _).
    exists k, j, l, r, c, ps. auto.
Qed.

Lemma considered_info w : has_infos s -> considered (cfg := shipped s) (it := it) w -> info_ok (s_lexinfo s) w.
Proof.
  intros HI Hw. destruct (considered_kind w Hw) as [(wid & e & l & r & c & Hin & -> & _)|(k & j & l & r & c & ps & _ & ->)].
  - destruct (HI _ _ _ _ Hin) as (wi & E). exists wi. exact E.
  - eexists. reflexivity.
Qed.

Lemma considered_plain w info cs : plain_digits s -> considered (cfg := shipped s) (it := it) w ->
  node_info (s_lexinfo s) w = Ok info -> get_cats_range it (w_begin w) (w_end w) = Ok cs -> In NUMERIC cs \/ In KANJINUMERIC cs ->
  ~ In comma_char (wi_norm info) /\ ~ In point_char (wi_norm info).
Proof.
  intros (PC & PL) Hw Ei Ec Hc. destruct (considered_kind w Hw) as [(wid & e & l & r & c & Hin & Ew & i & j & Hij & Eb & Ee)|(k & j & l & r & c & ps & Hkj & Ew)].
  - rewrite Ew in Ei, Ec. cbn in Ei, Ec. rewrite Eb, Ee in *. apply (PL t _ i j wid info (bt_enc B) Hij Hin Ei).
    assert (K : forall x, In x cs -> Forall (fun c => In x (s_category s c)) (slice t i j)).
    { intros x Hx. apply (cats_range_shared i j cs _ Hij Ec) in Hx. apply Forall_forall. intros ch Hch. apply In_nth_error in Hch as (a & Ha).
      rewrite nth_error_slice in Ha. destruct (Nat.ltb_spec (i + a) j); [|discriminate]. destruct (Hx (i + a)) as (cs' & En & Hin'); try lia. rewrite nth_error_map, Ha in En. injection En as <-. exact Hin'. }
    destruct Hc as [Hc|Hc]; [left|right]; now apply K.
  - rewrite Ew in Ei, Ec. cbn in Ei, Ec. injection Ei as <-. cbn [wi_norm].
    assert (K : forall x, In x (slice t k j) -> x <> comma_char /\ x <> point_char).
    { intros x Hx. apply In_nth_error in Hx as (a & Ha). apply PC.
      rewrite nth_error_slice in Ha. destruct (Nat.ltb_spec (k + a) j); [|discriminate].
      destruct Hc as [Hc|Hc]; [left|right]; apply (cats_range_shared k j cs _ Hkj Ec) in Hc;
        destruct (Hc (k + a)) as (cs' & En & Hin'); try lia; rewrite nth_error_map, Ha in En; injection En as <-; exact Hin'. }
    split; intros Hx; apply K in Hx; tauto.
Qed.

Lemma rewrites_succeed lat p : has_infos s -> plain_digits s -> numbers_first s -> read_text it ->
  lists_end n lat ->
  (forall e ls w, nth_error (l_lists lat) e = Some ls -> In w (map ln_word ls) -> 0 < e -> w_end w = e /\ considered (cfg := shipped s) (it := it) w) ->
  tiles 0 (map to_step p) n -> Forall (considered (cfg := shipped s) (it := it)) p ->
  exists q, foldM (fun p plugin => plugin it p lat) p (cf_rewrites (shipped s)) = Ok q.
Proof.
  intros HI PD NF RT LE LW T F.
  assert (FI : Forall (info_ok (s_lexinfo s)) p) by (eapply Forall_impl; [|exact F]; intros w; now apply considered_info).
  assert (K : forall ks p, tiles 0 (map to_step p) n -> Forall (info_ok (s_lexinfo s)) p ->
     exists q, foldM (fun p plugin => plugin it p lat) p (map (rewrite_with (s_lexinfo s)) (map JoinKatakana ks)) = Ok q).
  { induction ks as [|c ks IH]; intros p1 T1 F1; cbn [map foldM rewrite_with]; [eauto|].
    destruct (C29_katakana (s_lexinfo s) c it lat p1 RT LE T1 F1) as (q & -> & J & T2 & _). cbn [bind]. apply IH; auto.
    eapply joined_all; eauto. intros g after w (_ & _ & _ & _ & [(Hl & _)|(_ & _ & infos & wi & _ & Wd & Wx & _)]) _ Hne.
    - destruct Hl as (ls & E & Hin & _). destruct (LW _ _ _ E Hin ltac:(lia)) as (_ & Hc). now apply considered_info.
    - exists wi. unfold node_info. now rewrite Wd, Wx. }
  cbn [shipped cf_rewrites]. destruct NF as (ks & [-> |(c & ->)]); [now apply K|].
  cbn [map foldM rewrite_with].
  destruct (C31_ends_partial (s_lexinfo s) c it p RT T FI) as (q & Eq).
  { intros w info cs Hw. apply considered_plain; auto. rewrite Forall_forall in F. now apply F. }
  rewrite Eq. cbn [bind]. destruct (C30_numbers (s_lexinfo s) c it p RT T FI) as [E|(q' & E & J & T2 & _)]; [congruence|].
  rewrite Eq in E. injection E as <-. apply K; auto.
  eapply joined_all; eauto. intros g after w (infos & wi & _ & _ & _ & Wd & Wx & _) _ _. exists wi. unfold node_info. now rewrite Wd, Wx.
Qed.
End rewriting.

Theorem C21_shipped_partial s lat t :
  good_settings s -> scalar_settings s -> has_infos s -> plain_digits s -> numbers_first s ->
  costs_in bits16 bits16 (shipped s) -> open_ended (shipped s) -> alphabetic_ok (shipped s) -> usable (shipped s) lat ->
  scalar_text t -> t <> [] ->
  exists it, run_prepare (shipped s) t = Ok it /\
    ((Z.of_nat (length (it_bytes it)) <= 32766)%Z ->
     exists lat' path, run (shipped s) lat t ModeC = (lat', Ok (Some (it, path)))).
Proof.
  intros G SS HI PD NF C O A U Hs Ht.
  destruct (shipped_prepare s t G SS Hs) as (bd & it & He & Hbs & Eb & Ep). exists it. split; [exact Ep|]. intros Hn.
  pose proof (shipped_sane s G) as S.
  destruct (run_prepare_built (shipped s) t it S Ht Ep) as (bd' & _ & _ & B).
  apply (C21_total_partial (shipped s) lat t it S C O A U Ht Ep Hn).
  intros lat1 p Ea. destruct (analyse_path S B lat lat1 p (usable_clean _ _ S U) Ea) as (T & F & _).
  destruct (analyse_lists S B lat lat1 _ (usable_clean _ _ S U) Ea) as (LE & LW).
  apply (rewrites_succeed s G B lat1 p HI PD NF); auto.
  exists (s_category s), t, bd. split; [apply (gs_category _ G)|]. auto.
Qed.
Print Assumptions C21_shipped_partial.

(** ** C63 *)
(** The word ids of dictionaries are not negative. *)
Definition nonneg_ids (s : settings) : Prop :=
  (forall bs i wid e, In (wid, e) (fst (s_lookup s bs i)) -> (0 <= wid)%Z) /\
  (forall wid wi, s_lexinfo s wid = Ok wi -> Forall (fun x => 0 <= x)%Z (wi_a wi ++ wi_b wi)).

(** A word of an analysis is from a dictionary, made by an OOV provider or the katakana
    plugin, or made by the numeric plugin. *)
Definition from_dictionary (w : wnode) : Prop := w_oov w = false /\ w_extra w = None /\ w_defined w = true /\ (0 <= w_id w)%Z.
Definition made_oov (w : wnode) : Prop := w_oov w = true /\ (exists wi, w_extra w = Some wi /\ wi_a wi = [] /\ wi_b wi = []) /\ w_defined w = true.
Definition made_number (w : wnode) : Prop := w_oov w = false /\ (exists wi, w_extra w = Some wi /\ wi_a wi = [] /\ wi_b wi = []) /\ w_defined w = true.

Definition kind (w : wnode) : Prop := from_dictionary w \/ made_oov w \/ made_number w.
Definition kind' (w : wnode) : Prop := from_dictionary w \/ made_oov w.

Lemma dictionary_id_from w : from_dictionary w -> (0 <= node_dictionary_id w)%Z.
Proof. intros (_ & H1 & H2 & H3). unfold node_dictionary_id. rewrite H1, H2. cbn [negb]. now apply Z.shiftr_nonneg. Qed.
Lemma dictionary_id_oov w : made_oov w -> node_dictionary_id w = (-1)%Z.
Proof. intros (_ & (wi & H & _) & _). unfold node_dictionary_id. now rewrite H. Qed.

Lemma splits_kind s (K : wnode -> Prop) : nonneg_ids s -> (forall w, from_dictionary w -> K w) -> (forall w, K w -> kind w) ->
  forall m p q, Forall K p -> split_path (s_lexinfo s) m p = Ok q -> Forall K q.
Proof.
  intros (_ & NN) HK KK m p q F E.
  assert (SN : forall wids b ns, Forall (fun x => 0 <= x)%Z wids -> split_nodes (s_lexinfo s) b wids = Ok ns -> Forall K ns).
  { induction wids as [|x wids IH]; intros b ns Fx En; cbn [split_nodes] in En; [injection En as <-; constructor|].
    apply bind_ok in En as (nd & End & En). apply bind_ok in En as (wi & Ew & En). apply bind_ok in En as (r & Er & [= <-]).
    inversion Fx; subst. constructor; [|eauto]. apply HK. unfold lex_node in End. apply bind_ok in End as (z & Ez & [= <-]).
    apply to_int_ok in Ez as (-> & _). repeat split; auto. }
  assert (S1 : forall w ns, K w -> split_one (s_lexinfo s) m w = Ok ns -> Forall K ns).
  { intros w ns Hw En. unfold split_one in En. apply bind_ok in En as (wi & Ew & En).
    destruct (Nat.leb_spec (length (match m with ModeA => wi_a wi | _ => wi_b wi end)) 1); [injection En as <-; auto|].
    apply (SN _ _ _) in En; auto. destruct (KK w Hw) as [(_ & X & D & _)|[(_ & (wi' & X & A & B) & D)|(_ & (wi' & X & A & B) & D)]];
      unfold node_info in Ew; rewrite D, X in Ew; cbn [negb] in Ew.
    - apply NN in Ew. apply Forall_app in Ew as (E1 & E2). destruct m; auto.
    - injection Ew as <-. destruct m; rewrite ?A, ?B; constructor.
    - injection Ew as <-. destruct m; rewrite ?A, ?B; constructor. }
  assert (S2 : forall p nss, Forall K p -> mapM (split_one (s_lexinfo s) m) p = Ok nss -> Forall K (concat nss)).
  { induction p0 as [|w p0 IH]; intros nss Fp En; cbn [mapM] in En; [injection En as <-; constructor|].
    apply bind_ok in En as (a & Ea & En). apply bind_ok in En as (b & Eb & [= <-]). inversion Fp; subst. cbn [concat]. apply Forall_app. eauto. }
  destruct m; cbn [split_path] in E; [| |now injection E as <-]; apply bind_ok in E as (nss & En & [= <-]); eauto.
Qed.

Lemma run_kind s lat t m lat' it p (K : wnode -> Prop) :
  good_settings s -> nonneg_ids s -> usable (shipped s) lat ->
  (forall w, from_dictionary w -> K w) -> (forall w, made_oov w -> K w) -> (forall w, K w -> kind w) ->
  (forall c w, In (JoinNumeric c) (s_rewriters s) -> made_number w -> K w) ->
  run (shipped s) lat t m = (lat', Ok (Some (it, p))) -> Forall K p.
Proof.
  intros G NN U KD KO KK KN E. pose proof (shipped_sane s G) as S.
  destruct (run_inv _ _ _ _ _ _ E) as [(_ & [=])|(it' & lat1 & p0 & p1 & p2 & Ht & Ep & Ea & Ef & El & Es & [= <- <-])].
  destruct (run_prepare_built (shipped s) t it S Ht Ep) as (bd & _ & _ & B).
  destruct (analyse_path S B lat lat1 p0 (usable_clean _ _ S U) Ea) as (T & F & _).
  destruct (analyse_lists S B lat lat1 _ (usable_clean _ _ S U) Ea) as (LE & LW).
  assert (CK : forall w, considered (cfg := shipped s) (it := it) w -> K w).
  { intros w Hw. destruct (considered_kind s G B w Hw) as [(wid & e & l & r & c & Hin & Ew & _)|(k & j & l & r & c & ps & _ & Ew)]; rewrite Ew.
    - apply KD. repeat split; auto. cbn. destruct NN as (N1 & _). eapply N1; eauto.
    - apply KO. repeat split; auto. eexists. repeat split; reflexivity. }
  cbn [shipped cf_rewrites cf_lexinfo] in Ef, Es. apply (splits_kind s K NN KD KK m p1 p); [|exact Es].
  assert (R : forall rs p p', (forall c, In (JoinNumeric c) rs -> In (JoinNumeric c) (s_rewriters s)) ->
     tiles 0 (map to_step p) (length (it_bytes it)) -> Forall K p ->
     foldM (fun p plugin => plugin it p lat1) p (map (rewrite_with (s_lexinfo s)) rs) = Ok p' -> Forall K p').
  { clear - LE LW CK KO KN. induction rs as [|r rs IH]; intros p p' Hin T F E; cbn [map foldM] in E; [now injection E as <-|].
    apply bind_ok in E as (q & Eq & E). eapply IH; [| | |exact E]; [intros c Hc; apply Hin; now right| |].
    - destruct (rewriter_good (s_lexinfo s) r) as (_ & TR). eapply TR; eauto.
    - destruct r as [c|c]; cbn [rewrite_with] in Eq.
      + eapply (kata_loop_all (s_lexinfo s) K c it lat1); eauto.
        * intros b e w Hbe (ls & Els & Hin' & _). apply CK. eapply LW; eauto. lia.
        * intros b e wi A1 A2 _. apply KO. repeat split; auto. exists wi. auto.
      + eapply (jn_loop_all (s_lexinfo s) K c it); eauto. intros b e wi A1 A2 _.
        apply (KN c); [apply Hin; now left|]. repeat split; auto. exists wi. auto. }
  eapply R; eauto. eapply Forall_impl; [|exact F]. exact CK.
Qed.

(** An out-of-vocabulary morpheme has the dictionary id -1. *)
Theorem C63_oov_partial s lat t m lat' r i :
  good_settings s -> nonneg_ids s -> usable (shipped s) lat ->
  run (shipped s) lat t m = (lat', Ok r) ->
  let l := morphemes_of r in
  ml_is_oov l i = Ok true -> ml_dictionary_id l i = Ok (-1)%Z.
Proof.
  intros G NN U E. cbn zeta. destruct r as [[it p]|]; [|destruct i; discriminate]. cbn [morphemes_of]. unfold ml_is_oov, ml_dictionary_id. cbn [ml_path].
  destruct (get p i) as [w|] eqn:Ew; cbn [bind]; [|discriminate]. intros [= Ho]. f_equal. apply get_ok, nth_error_In in Ew.
  assert (F : Forall kind p) by (eapply run_kind; eauto; unfold kind; tauto).
  rewrite Forall_forall in F. destruct (F w Ew) as [(H & _)|[H|(H & _)]]; [congruence| |congruence]. now apply dictionary_id_oov.
Qed.
Print Assumptions C63_oov_partial.

(** Without the numeric plugin the converse holds too. *)
Theorem C63_without_numbers_partial s lat t m lat' r i :
  good_settings s -> nonneg_ids s -> usable (shipped s) lat -> (forall c, ~ In (JoinNumeric c) (s_rewriters s)) ->
  run (shipped s) lat t m = (lat', Ok r) ->
  let l := morphemes_of r in
  i < ml_len l -> exists o d, ml_is_oov l i = Ok o /\ ml_dictionary_id l i = Ok d /\ (o = true <-> d = -1)%Z /\
    (o = false -> exists wid, ml_word_id l i = Ok wid /\ d = wid / 2 ^ 28 /\ 0 <= d)%Z.
Proof.
  intros G NN U NJ E. cbn zeta. destruct r as [[it p]|]; [|cbn; lia]. cbn [morphemes_of]. unfold ml_is_oov, ml_dictionary_id, ml_word_id, ml_len. cbn [ml_path].
  intros Hi. destruct (get_lt p i Hi) as (w & Ew). rewrite Ew. cbn [bind]. exists (w_oov w), (node_dictionary_id w).
  split; [reflexivity|]. split; [reflexivity|]. apply get_ok, nth_error_In in Ew.
  assert (F : Forall kind' p).
  { eapply run_kind; eauto; unfold kind', kind; try tauto. intros c v Hc. destruct (NJ c Hc). }
  rewrite Forall_forall in F. destruct (F w Ew) as [H|H].
  - pose proof (dictionary_id_from w H) as P. destruct H as (-> & X & D & _). split; [split; [discriminate|lia]|].
    intros _. exists (w_id w). split; [reflexivity|]. split; [|exact P]. unfold node_dictionary_id. rewrite X, D. cbn [negb].
    apply Z.shiftr_div_pow2. lia.
  - pose proof (dictionary_id_oov w H). destruct H as (-> & _). rewrite H0. split; [tauto|discriminate].
Qed.
Print Assumptions C63_without_numbers_partial.

(** With it a joined number is not out-of-vocabulary and has the dictionary id -1: "12"
    with the words 1 and 2 in the dictionary. *)
Definition digits_settings (rs : list rewriter) : settings :=
  Settings (fun _ _ => Some 0%Z) toy_cats
    (fun bs i => (match nth_error bs i with Some c => if ((48 <=? c) && (c <=? 57))%Z then [((c - 48)%Z, S i)] else [] | None => [] end, None))
    (fun _ => Ok (1, 1, 10)%Z) (fun w => Ok (word_info_of [(w + 48)%Z] [(w + 48)%Z])) (fun c => [c]) (fun t => t)
    [SoundMarks (PsmCfg [0x30FC; 45] [0x30FC])]%Z [Simple (SimpleCfg 1 1 1000 5)] rs.
Lemma digits_good rs : good_settings (digits_settings rs) /\ nonneg_ids (digits_settings rs).
Proof.
  split; constructor; cbn [digits_settings s_category s_lookup s_inputs s_lower s_nfkc s_lexinfo].
  - intros c. unfold toy_cats. repeat (match goal with |- (if ?b then _ else _) <> [] => destruct b end; try discriminate).
  - intros bs i wid e. destruct (nth_error bs i) as [c|] eqn:E; [|intros []]. destruct (_ && _)%Z; [|intros []].
    intros [H|[]]. injection H as <- <-. assert (i < length bs) by (apply nth_error_Some; congruence). lia.
  - intros c [H|[]]. discriminate.
  - intros c [H|[]]. injection H as <-. eexists. reflexivity.
  - discriminate.
  - auto.
  - intros bs i wid e. destruct (nth_error bs i) as [c|] eqn:E; [|intros []]. destruct (_ && _)%Z eqn:Eb; [|intros []].
    intros [H|[]]. injection H as <- <-. Zbool. lia.
  - intros wid wi [= <-]. constructor.
Qed.
Theorem C63_number_refuted :
  let s := digits_settings [JoinNumeric (NumericCfg 7 true)] in
  good_settings s /\ nonneg_ids s /\
  exists lat' r, run (shipped s) new_lattice [49; 50]%Z ModeC = (lat', Ok r) /\
    ml_len (morphemes_of r) = 1 /\ ml_is_oov (morphemes_of r) 0 = Ok false /\ ml_dictionary_id (morphemes_of r) 0 = Ok (-1)%Z.
Proof.
  cbv zeta. split; [apply digits_good|]. split; [apply digits_good|].
  set (x := run (shipped (digits_settings [JoinNumeric (NumericCfg 7 true)])) new_lattice [49; 50]%Z ModeC). vm_compute in x.
  exists (fst x), (match snd x with Ok r => r | Err _ => None end). split; [vm_compute; reflexivity|]. repeat split; vm_compute; reflexivity.
Qed.
Print Assumptions C63_number_refuted.

(** All the hypotheses together: the text "アイ--12a" with both rewriting plugins. *)
Example C20_C21_C63_nonvacuous :
  let s := digits_settings [JoinNumeric (NumericCfg 7 true); JoinKatakana (KatakanaCfg 5 3)] in
  good_settings s /\ scalar_settings s /\ has_infos s /\ plain_digits s /\ numbers_first s /\
  costs_in bits16 bits16 (shipped s) /\ open_ended (shipped s) /\ alphabetic_ok (shipped s) /\
  exists lat' it p, run (shipped s) new_lattice [0x30A2; 0x30A4; 45; 45; 49; 50; 97]%Z ModeC = (lat', Ok (Some (it, p))) /\
    map (fun w => (w_begin w, w_end w, w_oov w)) p = [(0, 9, true); (9, 11, false); (11, 12, true)] /\
    ml_surface (morphemes_of (Some (it, p))) 0 = Ok [0x30A2; 0x30A4; 45; 45]%Z.
Proof.
  cbv zeta. split; [apply digits_good|]. split; [|split; [|split; [|split; [|split; [|split; [|split]]]]]].
  - constructor; cbn [digits_settings s_inputs s_lower s_nfkc].
    + intros c k v [H|[]]. discriminate.
    + intros c [H|[]]. injection H as <-. repeat constructor.
    + intros c Hc. repeat constructor. exact Hc.
    + auto.
  - intros bs i wid e _. eexists. reflexivity.
  - split; cbn [digits_settings s_category s_lookup s_lexinfo].
    + intros c. unfold toy_cats. destruct (Z.leb_spec 48 c), (Z.leb_spec c 57); cbn [andb]; try (unfold comma_char, point_char; lia);
        intros HX; (split; intros ->); vm_compute in HX; intuition discriminate.
    + intros t bs i j wid wi _ _ Hin [= <-] _. cbn [wi_norm word_info_of]. destruct (nth_error bs (char_start t i)) as [c|]; [|destruct Hin].
      destruct (_ && _)%Z eqn:Eb; [|destruct Hin]. destruct Hin as [H|[]]. injection H as <- _. Zbool.
      unfold comma_char, point_char. split; intros [HX|[]]; lia.
  - exists [KatakanaCfg 5 3]. right. eexists. reflexivity.
  - constructor; unfold bits16; cbn.
    + intros a b. lia.
    + intros wid l r c [= <- <- <-]. lia.
    + intros p [<-|[]]. cbn. lia.
  - constructor; cbn.
    + exists [], (SimpleCfg 1 1 1000 5). reflexivity.
    + discriminate.
    + exists (fun _ => True), (fun _ => True). constructor; cbn; auto; [discriminate|]. intros p [<-|[]]. cbn. auto.
    + intros bs i. destruct (nth_error bs i); reflexivity.
    + intros bs i wid e. destruct (nth_error bs i) as [c|] eqn:E; [|intros []]. destruct (_ && _)%Z eqn:Eb; [|intros []].
      intros [H|[]]. injection H as <- <-. Zbool. split; [lia|]. eauto.
  - constructor; cbn.
    + intros ch a Ha Hin. unfold toy_cats in *. exfalso.
      repeat (match type of Hin with In _ (if ?b then _ else _) => destruct b end);
        destruct Ha as [Ha|[Ha|Ha]]; subst a; cbn in Hin; intuition discriminate.
    + intros mc [H|[]]. discriminate.
  - set (x := run (shipped (digits_settings [JoinNumeric (NumericCfg 7 true); JoinKatakana (KatakanaCfg 5 3)])) new_lattice [0x30A2; 0x30A4; 45; 45; 49; 50; 97]%Z ModeC).
    vm_compute in x. exists (fst x), (match snd x with Ok (Some (it, _)) => it | _ => nowhere end), (match snd x with Ok (Some (_, p)) => p | _ => [] end).
    split; [vm_compute; reflexivity|]. split; vm_compute; reflexivity.
Qed.
