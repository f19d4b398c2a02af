(** Joining neighbours in a path: general facts and the katakana plugin. *)
From Coq Require Import List ZArith Lia Bool Arith.
From Verif Require Import Base Utf8 M_Builder M_InputText M_Lattice M_NumericParser M_PathRewrite
  S_Text S_Lattice S_Rewrite P_InputText P_Accessors P_Tokenizer P_Path.
Import ListNotations.
Open Scope nat_scope.

(** * Joined paths *)
Lemma joined_refl R c p : joined R c p p.
Proof. induction p; constructor; auto. Qed.

Lemma joined_app R c p p' q q' : joined R (q ++ c) p p' -> joined R c q q' -> joined R c (p ++ q) (p' ++ q').
Proof.
  intros H Hq. induction H as [|w p p' H IH|first g last w p p' H1 H2 H3 H4 HR H IH]; cbn [app]; auto.
  - now constructor.
  - rewrite <- app_assoc. eapply joined_group; eauto. now rewrite <- app_assoc.
Qed.

Lemma tiles_app_iff b p q e : tiles b (p ++ q) e <-> exists m, tiles b p m /\ tiles m q e.
Proof.
  revert b. induction p as [|s p IH]; intros b; cbn [app tiles].
  - split; [intros H; exists b; auto|intros (m & -> & H); auto].
  - rewrite IH. split.
    + intros (A & C & m & D & F). exists m. auto.
    + intros (m & (A & C & D) & F). eauto 6.
Qed.
Lemma tiles_le b p e : tiles b p e -> b <= e.
Proof. revert b. induction p as [|s p IH]; intros b; cbn [tiles]; [lia|]. intros (A & C & H). apply IH in H. lia. Qed.
Lemma tiles_ne b p e : tiles b p e -> p <> [] -> b < e.
Proof. destruct p as [|s p]; [congruence|]. intros (A & C & H) _. apply tiles_le in H. lia. Qed.

Lemma tiles_hd b p e w : tiles b (map to_step p) e -> hd_error p = Some w -> w_begin w = b.
Proof. destruct p as [|x p]; cbn; [discriminate|]. intros (A & _) [= <-]. exact A. Qed.
Lemma tiles_last b p e w : tiles b (map to_step p) e -> hd_error (rev p) = Some w -> w_end w = e.
Proof.
  destruct p as [|x p] using rev_ind; [discriminate|]. rewrite rev_unit. cbn [hd_error]. intros T [= <-].
  rewrite map_app in T. cbn [map] in T. apply tiles_snoc in T. apply T.
Qed.

Lemma joined_tiles R c p q : joined R c p q -> forall b e, tiles b (map to_step p) e -> tiles b (map to_step q) e.
Proof.
  induction 1 as [|w p p' H IH|first g last w p p' H1 H2 H3 H4 HR H IH]; intros b e T; auto.
  - cbn [map tiles] in *. destruct T as (A & C & T). auto.
  - rewrite map_app in T. apply tiles_app_iff in T as (m & Tg & Tp).
    pose proof (tiles_hd _ _ _ _ Tg H1). pose proof (tiles_last _ _ _ _ Tg H2).
    assert (b < m). { apply (tiles_ne _ _ _ Tg). destruct g; [discriminate|discriminate]. }
    cbn [map tiles to_step s_begin s_end]. repeat split; try lia.
    apply IH. replace (w_end w) with m by lia. exact Tp.
Qed.

Lemma joined_starts R c p q : joined R c p q -> incl (starts q) (starts p).
Proof.
  unfold starts. induction 1 as [|w p p' H IH|first g last w p p' H1 H2 H3 H4 HR H IH]; cbn [map].
  - apply incl_refl.
  - intros x [<-|I]; [now left|right; auto].
  - rewrite map_app. intros x [<-|I]; apply in_or_app; [left|right; auto].
    rewrite H3. apply in_map. destruct g; [discriminate|]. injection H1 as ->. now left.
Qed.

(** * Reading the text and the nodes *)
Definition inside (n : nat) (w : wnode) : Prop := w_begin w < w_end w <= n.

Lemma tiles_inside b p e : tiles b (map to_step p) e -> Forall (inside e) p.
Proof.
  revert b. induction p as [|w p IH]; intros b T; constructor.
  - destruct T as (A & C & T). cbn in *. apply tiles_le in T. unfold inside. cbn in T. lia.
  - destruct T as (A & C & T). eapply IH, T.
Qed.

Section text.
Context {t orig : text} {m2o : list nat} {cats : list (list cat)} {it : input_text}.
Context (B : built t orig m2o cats it).
Notation n := (length (it_bytes it)).

Lemma cats_range_total b e : b < e -> e <= n -> exists cs, get_cats_range it b e = Ok cs.
Proof.
  intros Hbe He. destruct (char_pos_exists B b ltac:(lia)) as (k & Hk).
  destruct (char_pos_exists B e ltac:(lia)) as (j & Hj).
  pose proof Hk as Hk'. destruct Hk' as [Hin|[-> _]]; [|lia].
  destruct (cont_length B b k Hin) as (s & x & _ & _ & _ & Ec & _).
  unfold get_cats_range. rewrite Ec. cbn [bind]. destruct (_ <? e); [eauto|].
  unfold get at 1. rewrite (char_pos_bi B _ _ Hk). cbn [bind].
  unfold get at 1. rewrite (char_pos_bi B _ _ Hj). cbn [bind].
  pose proof (bt_cats_len B) as CL. pose proof (bt_nonempty B) as CN.
  assert (Hj' : j <= length t) by (destruct Hj as [(? & _)|[_ ->]]; lia).
  assert (G : forall i, i < length t -> exists x, get (it_cats it) i = Ok x /\ x <> []).
  { intros i Hi. rewrite (bt_cats B). destruct (get_lt cats i ltac:(lia)) as (y & Hy). exists y. split; auto.
    apply get_ok in Hy. eapply Forall_forall in CN; [exact CN|]. eapply nth_error_In; eauto. }
  destruct (G k) as (c0 & E0 & _); [apply Hin|]. rewrite E0. cbn [bind].
  assert (F : forall m i acc, i + m <= length t ->
    exists cs, foldM (fun acc i => c <- get (it_cats it) i ;; cat_and acc c) acc (seq i m) = Ok cs).
  { induction m as [|m IH]; intros i acc Him; cbn [seq foldM]; [eauto|].
    destruct (G i) as (y & Ey & Ny); [lia|]. rewrite Ey. cbn [bind]. rewrite cat_and_ok by auto. cbn [bind].
    apply IH. lia. }
  apply F. pose proof (char_pos_mono B b e k j ltac:(lia) Hk Hj). destruct Hin. lia.
Qed.

Lemma node_cats_total w : inside n w -> exists cs, node_cats it w = Ok cs.
Proof. intros (A & C). unfold node_cats. now apply cats_range_total. Qed.
Lemma is_katakana_total w : inside n w -> exists b, is_katakana it w = Ok b.
Proof. intros H. destruct (node_cats_total w H) as (cs & E). unfold is_katakana. rewrite E. cbn [bind]. eauto. Qed.
Lemma can_oov_bow_total w : inside n w -> exists b, can_oov_bow it w = Ok b.
Proof.
  intros (H1 & H2). unfold can_oov_bow. destruct (byte_cases B (w_begin w) ltac:(lia)) as [(k & Hk)|Hk]; [|lia].
  destruct (cats_at B _ _ Hk) as (cs & _ & E). rewrite E. cbn [bind]. eauto.
Qed.
Lemma is_shorter_total len w : inside n w -> exists b, is_shorter len it w = Ok b.
Proof.
  intros (H1 & H2). unfold is_shorter.
  destruct (char_pos_exists B (w_begin w) ltac:(lia)) as (k & Hk).
  destruct (char_pos_exists B (w_end w) ltac:(lia)) as (j & Hj).
  rewrite (code_point_count_spec B _ _ _ _ Hk Hj). cbn [bind]. eauto.
Qed.
Lemma kata_trigger_total cfg w : inside n w -> exists b, kata_trigger cfg it w = Ok b.
Proof.
  intros H. unfold kata_trigger. destruct (w_oov w); cbn [bind].
  - now apply is_katakana_total.
  - destruct (is_shorter_total (jk_min cfg) w H) as (a & ->). cbn [bind]. destruct a; [|eauto]. now apply is_katakana_total.
Qed.
End text.

(** * Splicing *)
Lemma slice_split {A} (l : list A) b e : b <= e <= length l ->
  l = firstn b l ++ slice l b e ++ skipn e l /\ length (slice l b e) = e - b /\ length (firstn b l) = b.
Proof.
  intros H. split; [|split].
  - unfold slice. rewrite <- (firstn_skipn e l) at 1. rewrite <- (firstn_skipn b (firstn e l)) at 1.
    rewrite firstn_firstn. rewrite Nat.min_l by lia. now rewrite <- app_assoc.
  - rewrite slice_length. lia.
  - rewrite firstn_length. lia.
Qed.

Lemma hd_slice {A} (l : list A) b e x : b < e -> nth_error l b = Some x -> hd_error (slice l b e) = Some x.
Proof.
  intros H E. assert (K : nth_error (slice l b e) 0 = Some x).
  { unfold slice. rewrite nth_error_skipn'. rewrite nth_error_firstn' by lia. now rewrite Nat.add_0_r. }
  destruct (slice l b e); cbn in *; congruence.
Qed.
Lemma last_slice {A} (l : list A) b e x : b < e -> nth_error l (e - 1) = Some x -> hd_error (rev (slice l b e)) = Some x.
Proof.
  intros H E. assert (Hl : e - 1 < length l) by (apply nth_error_Some; congruence).
  assert (K : nth_error (slice l b e) (e - b - 1) = Some x).
  { unfold slice. rewrite nth_error_skipn'. rewrite nth_error_firstn' by lia. replace (b + (e - b - 1)) with (e - 1) by lia. exact E. }
  pose proof (slice_split l b e ltac:(lia)) as (_ & L & _).
  destruct (slice l b e) as [|y r] using rev_ind; [cbn in L; lia|].
  rewrite rev_unit. cbn. rewrite app_length in L. cbn in L.
  rewrite nth_error_app2 in K by lia. replace (e - b - 1 - length r) with 0 in K by lia. cbn in K. exact K.
Qed.

Section nodes.
Variable lexinfo : Z -> res word_info.
Definition info_ok (w : wnode) : Prop := exists i, node_info lexinfo w = Ok i.
Lemma infos_total g : Forall info_ok g -> exists infos, mapM (node_info lexinfo) g = Ok infos.
Proof.
  induction 1 as [|w g (i & E) _ (is & IH)]; cbn [mapM]; [eauto|]. rewrite E. cbn [bind]. rewrite IH. cbn [bind]. eauto.
Qed.
End nodes.

Lemma minimum_fold r : forall n, let m := fold_left (fun m x => if (w_cost x <? w_cost m)%Z then x else m) r n in
  In m (n :: r) /\ forall x, In x (n :: r) -> (w_cost m <= w_cost x)%Z.
Proof.
  induction r as [|y r IH]; intros n; cbn [fold_left].
  - split; [now left|]. intros x [<-|[]]. lia.
  - destruct (IH (if (w_cost y <? w_cost n)%Z then y else n)) as (I & M). split.
    + destruct I as [<-|I]; [|now right; right]. destruct (w_cost y <? w_cost n)%Z; [right; now left|now left].
    + intros x [<-|[<-|K]].
      * specialize (M _ (or_introl eq_refl)). destruct (Z.ltb_spec (w_cost y) (w_cost n)); lia.
      * specialize (M _ (or_introl eq_refl)). destruct (Z.ltb_spec (w_cost y) (w_cost n)); lia.
      * apply M. now right.
Qed.

Lemma minimum_node_spec n lat b e : lists_end n lat -> e <= n ->
  exists m, get_minimum_node lat b e = Ok m /\
  match m with
  | Some w => w_begin w = b /\ w_end w = e /\ lattice_word lat b e w /\ forall x, lattice_word lat b e x -> (w_cost w <= w_cost x)%Z
  | None => forall x, ~ lattice_word lat b e x
  end.
Proof.
  intros (H1 & H2) He. unfold get_minimum_node, get_nodes. destruct (get_lt (l_lists lat) e ltac:(lia)) as (ls & El).
  rewrite El. cbn [bind]. apply get_ok in El.
  assert (K : forall x, In x (filter (fun w => w_begin w =? b) (map ln_word ls)) <-> lattice_word lat b e x).
  { intros x. rewrite filter_In. rewrite Nat.eqb_eq. unfold lattice_word. rewrite El. split.
    - intros (I & E). eauto.
    - intros (ls' & [= <-] & I & E). auto. }
  destruct (filter _ _) as [|w r] eqn:F.
  - exists None. split; [reflexivity|]. intros x Hx. apply K in Hx. destruct Hx.
  - eexists. split; [reflexivity|]. cbn beta iota. destruct (minimum_fold r w) as (I & M). apply K in I.
    split; [destruct I as (? & _ & _ & E); exact E|]. split.
    + destruct I as (ls' & E & I & _). eapply H2; eauto.
    + split; [exact I|]. intros x Hx. apply M. now apply K.
Qed.

(** * Katakana *)
Section kata.
Variable lexinfo : Z -> res word_info.
Context {t orig : text} {m2o : list nat} {cats : list (list cat)} {it : input_text}.
Context (B : built t orig m2o cats it).
Notation n := (length (it_bytes it)).
Variable cfg : katakana_cfg.
Variable lat : lattice.
Hypothesis LE : lists_end n lat.

Lemma is_katakana_true w : is_katakana it w = Ok true <-> katakana_word it w.
Proof.
  unfold is_katakana, node_cats, katakana_word. destruct (get_cats_range it (w_begin w) (w_end w)) as [cs|]; cbn [bind].
  - split.
    + intros [= E]. exists cs. split; auto. now apply cat_mem_In.
    + intros (cs' & [= <-] & E). apply cat_mem_In in E. now rewrite E.
  - split; [discriminate|]. intros (cs' & E & _). discriminate.
Qed.
Lemma is_katakana_false w : is_katakana it w = Ok false -> ~ katakana_word it w.
Proof. intros H K. apply is_katakana_true in K. congruence. Qed.
Lemma can_oov_bow_true w : can_oov_bow it w = Ok true -> oov_may_start it w.
Proof.
  unfold can_oov_bow, oov_may_start. destruct (get_cats_at it (w_begin w)) as [cs|]; cbn [bind]; [|discriminate].
  intros [= E]. exists cs. split; auto. rewrite <- cat_mem_In. now destruct (cat_mem NOOOVBOW cs).
Qed.

Lemma kata_begin_spec path : Forall (inside n) path -> forall i, i <= length path ->
  exists b, kata_begin it path i = Ok b /\ b <= i /\
    (forall j w, b <= j < i -> nth_error path j = Some w -> katakana_word it w) /\
    (b = 0 \/ exists w, nth_error path (b - 1) = Some w /\ ~ katakana_word it w).
Proof.
  intros F. induction i as [|i IH]; intros Hi; cbn [kata_begin].
  - exists 0. repeat split; auto. intros; lia.
  - destruct (get_lt path i ltac:(lia)) as (w & Ew). rewrite Ew. cbn [bind]. apply get_ok in Ew.
    assert (Iw : inside n w) by (eapply Forall_forall in F; [exact F|eapply nth_error_In; eauto]).
    destruct (is_katakana_total B w Iw) as (k & Ek). rewrite Ek. cbn [bind]. destruct k.
    + destruct (IH ltac:(lia)) as (b & E & Hb & H1 & H2). exists b. split; auto. split; [lia|]. split; auto.
      intros j x Hj Ex. destruct (Nat.eq_dec j i) as [->|]; [|apply (H1 j); auto; lia].
      rewrite Ew in Ex. injection Ex as <-. now apply is_katakana_true.
    + exists (S i). split; auto. split; auto. split; [intros; lia|]. right. exists w. cbn. rewrite Nat.sub_0_r.
      split; auto. now apply is_katakana_false.
Qed.

Lemma kata_end_spec path : Forall (inside n) path -> forall k e, e + k = length path ->
  exists e', kata_end it path e k = Ok e' /\ e <= e' <= length path /\
    (forall j w, e <= j < e' -> nth_error path j = Some w -> katakana_word it w) /\
    (forall w, nth_error path e' = Some w -> ~ katakana_word it w).
Proof.
  intros F. induction k as [|k IH]; intros e He; cbn [kata_end].
  - exists e. split; auto. split; [lia|]. split; [intros; lia|]. intros w Hw. assert (e < length path) by (apply nth_error_Some; congruence). lia.
  - destruct (get_lt path e ltac:(lia)) as (w & Ew). rewrite Ew. cbn [bind]. apply get_ok in Ew.
    assert (Iw : inside n w) by (eapply Forall_forall in F; [exact F|eapply nth_error_In; eauto]).
    destruct (is_katakana_total B w Iw) as (kk & Ek). rewrite Ek. cbn [bind]. destruct kk.
    + destruct (IH (S e) ltac:(lia)) as (e' & E & Hb & H1 & H2). exists e'. split; auto. split; [lia|]. split; auto.
      intros j x Hj Ex. destruct (Nat.eq_dec j e) as [->|]; [|apply (H1 j); auto; lia].
      rewrite Ew in Ex. injection Ex as <-. now apply is_katakana_true.
    + exists e. split; auto. split; [lia|]. split; [intros; lia|]. intros x Hx. rewrite Ew in Hx. injection Hx as <-.
      now apply is_katakana_false.
Qed.

Lemma skip_nobow_spec path : Forall (inside n) path -> forall k b, b + k <= length path ->
  exists b', skip_nobow it path b k = Ok b' /\ b <= b' <= b + k /\
    (b' < b + k -> forall w, nth_error path b' = Some w -> oov_may_start it w).
Proof.
  intros F. induction k as [|k IH]; intros b Hb; cbn [skip_nobow].
  - exists b. split; auto. split; lia.
  - destruct (get_lt path b ltac:(lia)) as (w & Ew). rewrite Ew. cbn [bind]. apply get_ok in Ew.
    assert (Iw : inside n w) by (eapply Forall_forall in F; [exact F|eapply nth_error_In; eauto]).
    destruct (can_oov_bow_total B w Iw) as (c & Ec). rewrite Ec. cbn [bind]. destruct c.
    + exists b. split; auto. split; [lia|]. intros _ x Hx. rewrite Ew in Hx. injection Hx as <-. now apply can_oov_bow_true.
    + destruct (IH (S b) ltac:(lia)) as (b' & E & H1 & H2). exists b'. split; auto. split; [lia|]. intros. apply H2; auto. lia.
Qed.

Notation R := (katakana_group lexinfo it lat (jk_pos cfg)).

Lemma concatenate_oov_spec path b e : tiles 0 (map to_step path) n -> b < e <= length path ->
  Forall (info_ok lexinfo) (slice path b e) ->
  exists w first last, concatenate_oov lexinfo lat path b e (jk_pos cfg) = Ok (splice path b e w) /\
    nth_error path b = Some first /\ nth_error path (e - 1) = Some last /\
    w_begin w = w_begin first /\ w_end w = w_end last /\
    ((lattice_word lat (w_begin w) (w_end w) w /\
      forall x, lattice_word lat (w_begin w) (w_end w) x -> (w_cost w <= w_cost x)%Z) \/
     ((forall x, ~ lattice_word lat (w_begin w) (w_end w) x) /\ w_oov w = true /\
      exists infos wi, mapM (node_info lexinfo) (slice path b e) = Ok infos /\ w_defined w = true /\ w_extra w = Some wi /\
        wi_pos wi = jk_pos cfg /\ wi_surface wi = concat (map wi_surface infos) /\
        wi_norm wi = wi_surface wi /\ wi_dic wi = wi_surface wi /\ wi_reading wi = [] /\
        wi_length wi = list_sum (map wi_length infos))).
Proof.
  intros T Hbe FI. unfold concatenate_oov. destruct (Nat.leb_spec e b); [lia|].
  destruct (get_lt path b ltac:(lia)) as (first & Ef). destruct (get_lt path (e - 1) ltac:(lia)) as (last & El).
  rewrite Ef, El. cbn [bind]. apply get_ok in Ef, El.
  pose proof (tiles_inside _ _ _ T) as F. pose proof F as F'. eapply Forall_forall in F'; [|eapply nth_error_In, El]. destruct F' as (_ & F').
  destruct (minimum_node_spec n lat (w_begin first) (w_end last) LE F') as (m & Em & Hm). rewrite Em. cbn [bind].
  destruct m as [w|].
  - destruct Hm as (H1 & H2 & H3 & H4). exists w, first, last. repeat split; auto. left. rewrite H1, H2. auto.
  - destruct (infos_total lexinfo _ FI) as (infos & EI). rewrite EI. cbn [bind].
    eexists _, first, last. split; [reflexivity|]. split; auto. split; auto. split; [reflexivity|]. split; [reflexivity|].
    right. cbn [w_begin w_end set_oov set_word_info set_range]. split; [exact Hm|]. split; [reflexivity|].
    eexists infos, _. split; [reflexivity|]. cbn. repeat split.
Qed.

Lemma kata_loop_spec P : tiles 0 (map to_step P) n -> Forall (info_ok lexinfo) P ->
  forall f path i P0 A T, P = P0 ++ T -> path = A ++ T -> joined R T P0 A ->
    length path - i < f ->
    (length path <= i \/ (length A <= i /\ forall x, hd_error (rev A) = Some x -> ~ katakana_word it x)) ->
    exists q, kata_loop lexinfo cfg it lat f path i = Ok q /\ joined R [] P q.
Proof.
  intros TP IP. induction f as [|f IH]; intros path i P0 A T EP Epath J Hf Hi; [lia|]. cbn [kata_loop].
  assert (JP : joined R [] P path).
  { subst. apply joined_app; [now rewrite app_nil_r|apply joined_refl]. }
  pose proof (joined_tiles _ _ _ _ JP _ _ TP) as Tpath. pose proof (tiles_inside _ _ _ Tpath) as F.
  destruct (Nat.leb_spec (length path) i) as [Hlen|Hlen]; [eauto|]. destruct Hi as [Hi|(HA & Hlast)]; [lia|].
  destruct (get_lt path i Hlen) as (w & Ew). rewrite Ew. cbn [bind]. apply get_ok in Ew.
  assert (Iw : inside n w) by (eapply Forall_forall in F; [exact F|eapply nth_error_In; eauto]).
  destruct (kata_trigger_total B cfg w Iw) as (tr & Et). rewrite Et. cbn [bind].
  assert (Next : exists q, kata_loop lexinfo cfg it lat f path (S i) = Ok q /\ joined R [] P q).
  { apply (IH path (S i) P0 A T); auto; try lia; right; split; auto; lia. }
  destruct tr; cbn [negb]; [|exact Next].
  destruct (kata_begin_spec path F i ltac:(lia)) as (b0 & Eb & Hb0 & Kb & Sb). rewrite Eb. cbn [bind].
  destruct (kata_end_spec path F (length path - S i) (S i) ltac:(lia)) as (e & Ee & He & Ke & Se). rewrite Ee. cbn [bind].
  destruct (skip_nobow_spec path F (e - b0) b0 ltac:(lia)) as (b & Ek & Hb & Kk). rewrite Ek. cbn [bind].
  destruct (Nat.ltb_spec 1 (e - b)) as [Hg|Hg]; [|exact Next].
  (* the group starts after the part already rewritten *)
  assert (Hb0A : length A <= b0).
  { destruct (le_lt_dec (length A) b0) as [|Hlt]; auto. exfalso.
    destruct A as [|x A _] using rev_ind; [cbn in Hlt; lia|]. rewrite rev_unit in Hlast. specialize (Hlast x eq_refl).
    rewrite app_length in *. cbn [length] in *. apply Hlast. apply (Kb (length A)); [lia|].
    subst path. rewrite <- app_assoc. rewrite nth_error_app2, Nat.sub_diag by lia. reflexivity. }
  assert (ET : T = slice path (length A) b ++ slice path b e ++ skipn e path).
  { assert (K : T = skipn (length A) path) by (subst path; rewrite skipn_app, skipn_all, Nat.sub_diag; reflexivity).
    rewrite K at 1. destruct (slice_split path b e ltac:(lia)) as (S1 & _).
    rewrite S1 at 1. rewrite skipn_app. rewrite firstn_length, Nat.min_l by lia.
    replace (length A - b) with 0 by lia. cbn [skipn]. reflexivity. }
  assert (FI : Forall (info_ok lexinfo) (slice path b e)).
  { apply Forall_forall. intros x Hx. eapply Forall_forall in IP; [exact IP|]. subst P. apply in_or_app. right. rewrite ET.
    apply in_or_app. right. apply in_or_app. now left. }
  destruct (concatenate_oov_spec path b e Tpath ltac:(lia) FI) as (v & first & last & Ec & Nf & Nl & Wb & We & Wr).
  rewrite Ec. cbn [bind].
  assert (Efirst : firstn b path = A ++ slice path (length A) b).
  { unfold slice. rewrite <- (firstn_skipn (length A) (firstn b path)) at 1. f_equal.
    rewrite firstn_firstn, Nat.min_l by lia. subst path. now rewrite firstn_app, firstn_all, Nat.sub_diag, app_nil_r. }
  (* the group is related to its replacement *)
  assert (HR : R (slice path b e) (skipn e path) v).
  { destruct (slice_split path b e ltac:(lia)) as (_ & SL & _). split; [lia|]. split; [|split; [|split; [|exact Wr]]].
    - apply Forall_forall. intros x Hx. apply In_nth_error in Hx as (j & Hj).
      assert (Hjl : j < length (slice path b e)) by (apply nth_error_Some; congruence).
      unfold slice in Hj. rewrite nth_error_skipn', nth_error_firstn' in Hj by lia.
      destruct (lt_eq_lt_dec (b + j) i) as [[Hlt|Heq]|Hgt].
      + apply (Kb (b + j)); auto. lia.
      + rewrite Heq, Ew in Hj. injection Hj as <-. unfold kata_trigger in Et.
        apply is_katakana_true. destruct (w_oov w); cbn [bind] in Et; auto.
        apply bind_ok in Et as ([|] & _ & Et); [exact Et|discriminate].
      + apply (Ke (b + j)); auto. lia.
    - intros x Hx. apply Se. destruct (skipn e path) as [|y r] eqn:Es; [discriminate|]. cbn in Hx. injection Hx as ->.
      rewrite <- (Nat.add_0_r e), <- nth_error_skipn', Es. reflexivity.
    - intros x Hx. rewrite (hd_slice path b e first) in Hx by (auto; lia). injection Hx as <-. apply Kk; auto. lia. }
  destruct (skipn e path) as [|x T'] eqn:Es.
  - (* nothing follows *)
    apply (IH _ _ (P0 ++ slice path (length A) b ++ slice path b e) (firstn b path ++ [v]) []).
    + rewrite EP, ET, !app_nil_r. reflexivity.
    + unfold splice. rewrite Es. now rewrite app_nil_r.
    + rewrite Efirst. rewrite <- app_assoc. apply joined_app; [rewrite app_nil_r; rewrite ET in J; rewrite app_nil_r in J; exact J|].
      apply joined_app; [apply joined_refl|]. rewrite <- (app_nil_r (slice path b e)).
      eapply joined_group; [apply hd_slice; eauto; lia|apply last_slice; eauto; lia|auto|auto|exact HR|constructor].
    + unfold splice. rewrite app_length, firstn_length. cbn [length]. rewrite skipn_length. lia.
    + left. unfold splice. rewrite app_length, firstn_length, Es. cbn [length]. lia.
  - apply (IH _ _ (P0 ++ slice path (length A) b ++ slice path b e ++ [x]) (firstn b path ++ [v; x]) T').
    + rewrite EP, ET, <- !app_assoc. reflexivity.
    + unfold splice. rewrite Es. now rewrite <- app_assoc.
    + rewrite Efirst. rewrite <- app_assoc. apply joined_app; [rewrite ET in J; rewrite <- !app_assoc; exact J|].
      apply joined_app; [apply joined_refl|].
      change [v; x] with (v :: [x]). eapply joined_group; [apply hd_slice; eauto; lia|apply last_slice; eauto; lia|auto|auto|exact HR|].
      constructor. constructor.
    + unfold splice. rewrite app_length, firstn_length. cbn [length]. rewrite skipn_length. lia.
    + right. split; [rewrite app_length, firstn_length; cbn; lia|]. rewrite rev_app_distr. cbn. intros y [= <-].
      apply Se. rewrite <- (Nat.add_0_r e), <- nth_error_skipn', Es. reflexivity.
Qed.

Lemma join_katakana_spec P : tiles 0 (map to_step P) n -> Forall (info_ok lexinfo) P ->
  exists q, join_katakana lexinfo cfg it P lat = Ok q /\ joined R [] P q.
Proof.
  intros T F. unfold join_katakana. apply (kata_loop_spec P T F) with (P0 := []) (A := []) (T := P); auto; try lia; try apply joined_nil.
  right. cbn. split; [lia|]. discriminate.
Qed.
End kata.
