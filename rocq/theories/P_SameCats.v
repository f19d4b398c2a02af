(** The order in which a set of categories is iterated does not change which words
    are considered. *)
From Coq Require Import List ZArith Lia Bool Arith.
From Verif Require Import Base Utf8 M_Builder M_InputText M_Lattice M_Oov M_Tokenizer S_Text S_Lattice
  P_Builder P_InputText P_Accessors P_Oov P_Lattice P_Tokenizer P_Path P_Config.
Import ListNotations.
Open Scope nat_scope.

(** The same configuration with another enumeration of the category sets. *)
Definition with_category (cfg : config) (category : Z -> list cat) : config :=
  Config (cf_view cfg) category (cf_lookup cfg) (cf_params cfg) (cf_lexinfo cfg) (cf_inputs cfg)
    (cf_providers cfg) (cf_rewrites cfg).
Definition same_sets (f g : Z -> list cat) : Prop := forall c x, In x (f c) <-> In x (g c).

Lemma run_unique {C} (cats : list (list C)) s e s' e' k :
  run_start cats s -> is_run cats s e -> s <= k < e -> run_start cats s' -> is_run cats s' e' -> s' <= k < e' ->
  s = s' /\ e = e'.
Proof.
  intros H1 R1 K1 H2 R2 K2.
  assert (E : s = s').
  { destruct (le_lt_dec s s').
    - symmetry. apply (run_start_in_run cats s e s'); auto. lia.
    - apply (run_start_in_run cats s' e' s); auto. lia. }
  subst. split; auto. eapply is_run_unique; eauto.
Qed.

Section same.
Context {cfg : config} {category' : Z -> list cat} {t orig : text} {m2o : list nat} {it it' : input_text}.
Notation cfg' := (with_category cfg category').
Context (S0 : sane cfg) (B : built t orig m2o (map (cf_category cfg) t) it) (B' : built t orig m2o (map category' t) it').
Hypothesis same : same_sets (cf_category cfg) category'.
Notation cs := (char_start t).
Notation C := (map (cf_category cfg) t).
Notation C' := (map category' t).

Lemma same_bytes : it_bytes it' = it_bytes it.
Proof. pose proof (bt_enc B). pose proof (bt_enc B'). congruence. Qed.

Lemma same_shared s e c : shared C s e c <-> shared C' s e c.
Proof.
  split; intros H j Hj; destruct (H j Hj) as (x & E & Hx); rewrite nth_error_map in *;
    (destruct (nth_error t j) as [ch|]; [|discriminate]); injection E as <-; eexists; (split; [reflexivity|]); now apply same.
Qed.
Lemma same_is_run s e : is_run C s e <-> is_run C' s e.
Proof.
  unfold is_run. rewrite !map_length. split; intros (H1 & (c & H2) & H3); (split; [auto|]); (split; [exists c; now apply same_shared|]);
    (destruct H3 as [H3|H3]; [now left|right]); intros x Hx; apply (H3 x); now apply same_shared.
Qed.
Lemma same_run_start s : run_start C s <-> run_start C' s.
Proof. split; (induction 1 as [|s e _ IH He]; [constructor|]); econstructor; eauto; now apply same_is_run. Qed.

Lemma same_bow_at k : bow_at C k <-> bow_at C' k.
Proof.
  destruct k as [|k]; cbn [bow_at]; [tauto|]. split; intros H c p Hc Hp Ha x Hx Hxp; rewrite nth_error_map in Hc, Hp.
  - destruct (nth_error t (S k)) as [ch|] eqn:E1; [|discriminate]. destruct (nth_error t k) as [ch'|] eqn:E2; [|discriminate].
    injection Hc as <-. injection Hp as <-.
    apply (H (cf_category cfg ch) (cf_category cfg ch')) with (x := x); try (rewrite nth_error_map, ?E1, ?E2; reflexivity);
      try now apply same. destruct Ha as [Ha|[Ha|Ha]]; apply same in Ha; auto.
  - destruct (nth_error t (S k)) as [ch|] eqn:E1; [|discriminate]. destruct (nth_error t k) as [ch'|] eqn:E2; [|discriminate].
    injection Hc as <-. injection Hp as <-.
    apply (H (category' ch) (category' ch')) with (x := x); try (rewrite nth_error_map, ?E1, ?E2; reflexivity);
      try now apply same. destruct Ha as [Ha|[Ha|Ha]]; apply same in Ha; auto.
Qed.

Lemma same_can_bow p : p < length (it_bytes it) -> can_bow it' p = can_bow it p.
Proof.
  intros Hp. destruct (in_char_exists t _ p (bt_enc B) Hp) as (k & Hk).
  destruct (can_bow_spec B p k Hk) as (b & Eb & Hb). destruct (can_bow_spec B' p k Hk) as (b' & Eb' & Hb').
  rewrite Eb, Eb'. f_equal. apply Bool.eq_true_iff_eq. rewrite Hb, Hb'. rewrite same_bow_at. tauto.
Qed.

Lemma same_lex_words params i l : (forall wid e, In (wid, e) l -> e <= length (it_bytes it)) ->
  lex_words params it' i l = lex_words params it i l.
Proof.
  induction l as [|[wid e] l IH]; intros H; cbn [lex_words]; auto. rewrite same_bytes.
  rewrite IH by (intros; eapply H; right; eauto).
  destruct (Nat.ltb_spec e (length (it_bytes it))); [rewrite same_can_bow by auto|]; reflexivity.
Qed.

Lemma same_oov p k has ns ns' : k < length t -> get_oov p it (cs k) has = Ok ns -> get_oov p it' (cs k) has = Ok ns' ->
  forall w, In w ns <-> In w ns'.
Proof.
  intros Hk E E'. destruct p as [sc|mc].
  - destruct (simple_spec B sc k has Hk) as (ns0 & E0 & H). rewrite E in E0. injection E0 as <-.
    destruct (simple_spec B' sc k has Hk) as (ns0 & E0 & H'). rewrite E' in E0. injection E0 as <-.
    destruct has; [subst; tauto|]. destruct H as (j & Hj & Hnb & ->). destruct H' as (j' & Hj' & Hnb' & ->).
    assert (j = j').
    { destruct Hnb as (R1 & R2 & R3), Hnb' as (R1' & R2' & R3'). rewrite same_bytes in *.
      destruct (lt_eq_lt_dec j j') as [[Hlt|]|Hlt]; auto; exfalso.
      - pose proof (char_start_lt t j j' Hlt ltac:(lia)). destruct R2 as [R2|R2]; [lia|].
        rewrite <- same_can_bow in R2 by lia. rewrite R3' in R2 by lia. discriminate.
      - pose proof (char_start_lt t j' j Hlt ltac:(lia)). destruct R2' as [R2'|R2']; [lia|].
        rewrite same_can_bow in R2' by lia. rewrite R3 in R2' by lia. discriminate. }
    subst. tauto.
  - destruct (mecab_spec B mc k has Hk) as (ns0 & s & e & c0 & E0 & Hs & Hr & Hse & Hel & Ec0 & H). rewrite E in E0. injection E0 as <-.
    destruct (mecab_spec B' mc k has Hk) as (ns0 & s' & e' & c0' & E0 & Hs' & Hr' & Hse' & Hel' & Ec0' & H'). rewrite E' in E0. injection E0 as <-.
    apply same_run_start in Hs'. apply same_is_run in Hr'.
    destruct (run_unique _ _ _ _ _ k Hs Hr Hse Hs' Hr' Hse') as (<- & <-).
    rewrite nth_error_map in Ec0, Ec0'. destruct (nth_error t k) as [ch|]; [|discriminate]. injection Ec0 as <-. injection Ec0' as <-.
    intros w. rewrite H, H'. split; intros (c & Hc & Hw); exists c; (split; [now apply same|exact Hw]).
Qed.

Lemma oov_ok (i0 : input_text) (c0 : list (list cat)) (B0 : built t orig m2o c0 i0) p k h : k < length t -> exists ns, get_oov p i0 (cs k) h = Ok ns.
Proof.
  intros Hk. destruct p as [sc|mc].
  - destruct (simple_spec B0 sc k h Hk) as (ns & E & _). eauto.
  - destruct (mecab_spec B0 mc k h Hk) as (ns & s & e & x & E & _). eauto.
Qed.

Lemma same_nil {A} (l l' : list A) : (forall x, In x l <-> In x l') ->
  match l with [] => false | _ => true end = match l' with [] => false | _ => true end.
Proof.
  destruct l as [|x l], l' as [|y l']; auto; intros H; exfalso.
  - apply (H y). now left.
  - apply (H x). now left.
Qed.

Lemma same_oov_words ps k : forall h, k < length t ->
  snd (oov_words ps it (cs k) h) = None /\ snd (oov_words ps it' (cs k) h) = None /\
  forall w, In w (fst (oov_words ps it (cs k) h)) <-> In w (fst (oov_words ps it' (cs k) h)).
Proof.
  induction ps as [|p ps IH]; intros h Hk; cbn [oov_words]; [cbn; tauto|].
  destruct (oov_ok _ _ B p k h Hk) as (ns & E). destruct (oov_ok _ _ B' p k h Hk) as (ns' & E'). rewrite E, E'.
  pose proof (same_oov p k h ns ns' Hk E E') as Hns. rewrite <- (same_nil ns ns' Hns).
  set (h' := (h || _)%bool). destruct (IH h' Hk) as (H1 & H2 & H3).
  destruct (oov_words ps it (cs k) h') as [ms x], (oov_words ps it' (cs k) h') as [ms' x']. cbn [fst snd] in *.
  split; [auto|]. split; [auto|]. intros w. rewrite !in_app_iff, Hns, H3. tauto.
Qed.

Lemma cat_mem_In c l : cat_mem c l = true <-> In c l.
Proof.
  unfold cat_mem. rewrite existsb_exists. split.
  - intros (x & Hx & E). destruct c, x; try discriminate; auto.
  - intros H. exists c. split; auto. destruct c; reflexivity.
Qed.

Lemma same_candidates k : k < length t ->
  snd (run_candidates cfg it (cs k)) = snd (run_candidates cfg' it' (cs k)) /\
  forall w, In w (fst (run_candidates cfg it (cs k))) <-> In w (fst (run_candidates cfg' it' (cs k))).
Proof.
  intros Hk. unfold run_candidates, candidates. cbn [with_category cf_lookup cf_params cf_providers]. rewrite same_bytes.
  pose proof (sane_lookup cfg S0 (it_bytes it) (cs k)) as Hrange.
  destruct (cf_lookup cfg (it_bytes it) (cs k)) as [found x0]. cbn [fst] in Hrange.
  rewrite same_lex_words by (intros wid e H; apply Hrange in H; lia).
  destruct (lex_words (cf_params cfg) it (cs k) found) as [ws [x1|]]; [tauto|].
  destruct x0; [tauto|].
  destruct (cats_at B _ _ (in_char_start t k Hk)) as (c0 & Ec0 & ->).
  destruct (cats_at B' _ _ (in_char_start t k Hk)) as (c0' & Ec0' & ->).
  rewrite nth_error_map in Ec0, Ec0'. destruct (nth_error t k) as [ch|]; [|discriminate]. injection Ec0 as <-. injection Ec0' as <-.
  assert (Em : cat_mem NOOOVBOW (category' ch) = cat_mem NOOOVBOW (cf_category cfg ch)).
  { apply Bool.eq_true_iff_eq. rewrite !cat_mem_In. symmetry. apply same. }
  rewrite Em.
  set (h := match ws with [] => false | _ => true end).
  assert (Ho : exists os os', (if cat_mem NOOOVBOW (cf_category cfg ch) then ([], None) else oov_words (cf_providers cfg) it (cs k) h) = (os, None) /\
     (if cat_mem NOOOVBOW (cf_category cfg ch) then ([], None) else oov_words (cf_providers cfg) it' (cs k) h) = (os', None) /\
     forall w, In w os <-> In w os').
  { destruct (cat_mem NOOOVBOW (cf_category cfg ch)); [exists [], []; tauto|].
    destruct (same_oov_words (cf_providers cfg) k h Hk) as (H1 & H2 & H3).
    destruct (oov_words (cf_providers cfg) it (cs k) h) as [os x], (oov_words (cf_providers cfg) it' (cs k) h) as [os' x'].
    cbn [fst snd] in *. subst. eauto. }
  destruct Ho as (os & os' & -> & -> & Hos).
  destruct ws as [|w ws]; [|cbn [app fst snd]; split; auto; intros v; cbn [In]; rewrite !in_app_iff, Hos; tauto].
  cbn [app]. pose proof (same_nil os os' Hos) as Hn.
  destruct os as [|o os], os' as [|o' os']; try discriminate; [|cbn [fst snd]; auto].
  unfold default_oov. destruct (rev (cf_providers cfg)) as [|p r]; [tauto|].
  destruct (oov_ok _ _ B p k false Hk) as (ns & E). destruct (oov_ok _ _ B' p k false Hk) as (ns' & E'). rewrite E, E'.
  pose proof (same_oov p k false ns ns' Hk E E') as Hns. pose proof (same_nil ns ns' Hns).
  destruct ns, ns'; try discriminate; cbn [fst snd]; auto.
Qed.

Lemma same_considered w : considered (cfg := cfg) (it := it) w <-> considered (cfg := cfg') (it := it') w.
Proof.
  unfold considered, cand_word. rewrite same_bytes. split; intros (H1 & H2 & H3).
  - split; auto. rewrite same_can_bow by auto. split; auto.
    apply (bow_start B) in H2 as (k & Hk & Ek). rewrite Ek in *. now apply same_candidates.
  - split; auto. rewrite same_can_bow in H2 by auto. split; auto.
    apply (bow_start B) in H2 as (k & Hk & Ek). rewrite Ek in *. now apply same_candidates.
Qed.
End same.
