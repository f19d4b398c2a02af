(** Every position where a word may begin has a candidate that ends where a word may
    begin (or at the end), under conditions on alphabetic categories. *)
From Coq Require Import List ZArith Lia Bool Arith.
From Verif Require Import Base Utf8 M_Builder M_InputText M_Lattice M_Oov M_Tokenizer S_Text S_Lattice
  P_Builder P_InputText P_Accessors P_Oov P_Lattice P_Tokenizer P_Path P_Config.
Import ListNotations.
Open Scope nat_scope.

Definition alphabetic (c : cat) : Prop := c = ALPHA \/ c = GREEK \/ c = CYRILLIC.

Section total.
Context {cfg : config} {t orig : text} {m2o : list nat} {it : input_text}.
Notation category := (cf_category cfg).
Context (S0 : sane cfg) (B : built t orig m2o (map category t) it).
Notation n := (length (it_bytes it)).
Notation cs := (char_start t).
Notation cats := (map category t).

Hypothesis single : forall ch a, alphabetic a -> In a (category ch) -> category ch = [a].
Hypothesis grouped : forall mc, In (MeCab mc) (cf_providers cfg) -> forall a info, alphabetic a ->
  mc_info mc a = Some info -> ci_group info = true.
Hypothesis lookup_total : forall i, snd (cf_lookup cfg (it_bytes it) i) = None.
Hypothesis lookup_words : forall i wid e, In (wid, e) (fst (cf_lookup cfg (it_bytes it) i)) ->
  (-2147483648 <= wid <= 2147483647)%Z /\ exists p, cf_params cfg wid = Ok p.

(** A word may end at byte [p]. *)
Definition good_end (p : nat) : Prop := p = n \/ can_bow it p = Ok true.

Lemma can_bow_total p : p < n -> exists b, can_bow it p = Ok b.
Proof.
  intros Hp. destruct (in_char_exists _ _ p (bt_enc B) Hp) as (k & Hk).
  destruct (can_bow_spec B p k Hk) as (b & Eb & _). eauto.
Qed.

Lemma nth_cats k c : nth_error cats k = Some c -> exists ch, c = category ch.
Proof. rewrite nth_error_map. destruct (nth_error t k) as [ch|]; [|discriminate]. intros [= <-]. eauto. Qed.

(** Inside a run of characters that share a category, an alphabetic character has
    only that category. *)
Lemma bow_in_run k e j s : run_start cats s -> is_run cats s e -> s <= k < e -> k < j <= e -> e <= length t ->
  (j = e \/ exists c, nth_error cats k = Some c /\ forall a, In a c -> ~ alphabetic a) ->
  good_end (cs j).
Proof.
  intros Hs Hr Hk Hj He Hcase. unfold good_end.
  destruct (Nat.eq_dec j (length t)) as [->|Hne]; [left; apply (len_bytes B)|]. right.
  assert (Hjl : j < length t) by lia.
  pose proof (in_char_start t j Hjl) as Hin. destruct (can_bow_spec B _ _ Hin) as (b & Eb & Hb).
  rewrite Eb. f_equal. apply Hb. split; [reflexivity|].
  destruct j as [|j]; [lia|]. cbn [bow_at].
  intros c prev Hc Hprev Halpha x Hx Hxp.
  assert (Ha : exists a, alphabetic a /\ In a c) by (unfold alphabetic; destruct Halpha as [H|[H|H]]; eauto 6).
  destruct Ha as (a & Ha & Hac).
  destruct (nth_cats _ _ Hc) as (ch & ->). destruct (nth_cats _ _ Hprev) as (ch' & ->).
  rewrite (single ch a Ha Hac) in Hx. destruct Hx as [<-|[]].
  pose proof (single ch' a Ha Hxp) as Ep.
  destruct Hr as (_ & (y & Hy) & Hmax).
  destruct (Hy j ltac:(lia)) as (cj & Ecj & Hycj). rewrite Hprev in Ecj. injection Ecj as <-. rewrite Ep in Hycj.
  destruct Hycj as [<-|[]].
  destruct Hcase as [<-|(ck & Eck & Hna)].
  - destruct Hmax as [Hmax|Hmax]; [rewrite map_length in Hmax; lia|].
    apply (Hmax a). intros i Hi. destruct (Nat.eq_dec i (Datatypes.S j)) as [->|].
    + exists (category ch). split; auto.
    + apply Hy. lia.
  - destruct (Hy k ltac:(lia)) as (ck' & Eck' & Hin'). rewrite Eck in Eck'. injection Eck' as <-.
    exact (Hna a Hin' Ha).
Qed.

Lemma alphabetic_dec (c : list cat) : (exists a, In a c /\ alphabetic a) \/ (forall a, In a c -> ~ alphabetic a).
Proof.
  induction c as [|x c IH]; [right; intros ? []|].
  assert (Hx : alphabetic x \/ ~ alphabetic x) by (unfold alphabetic; destruct x; intuition discriminate).
  destruct Hx as [Hx|Hx]; [left; exists x; split; auto; now left|].
  destruct IH as [(a & H1 & H2)|H]; [left; exists a; split; auto; now right|].
  right. intros a [<-|Ha]; auto.
Qed.

(** A provider that offers something offers a word with a good end. *)
Lemma provider_good p k ns : In p (cf_providers cfg) -> k < length t -> get_oov p it (cs k) false = Ok ns -> ns <> [] ->
  exists w, In w ns /\ good_end (w_end w).
Proof.
  intros Hp Hk E Hne. destruct p as [sc|mc].
  - destruct (simple_spec B sc k false Hk) as (ns' & E' & j & Hj & Hnb & ->). rewrite E in E'. injection E' as ->.
    eexists. split; [now left|]. unfold span_word. cbn [set_range w_end].
    destruct Hnb as (_ & [Hb|Hb] & _); [left; auto|right; auto].
  - destruct (mecab_spec B mc k false Hk) as (ns' & s & e & c0 & E' & Hs & Hr & Hse & Hel & Ec0 & H).
    rewrite E in E'. injection E' as <-.
    destruct (alphabetic_dec c0) as [(a & Ha1 & Ha2)|Hna].
    + destruct (nth_cats _ _ Ec0) as (ch & ->).
      destruct ns as [|w ns]; [congruence|].
      destruct (proj1 (H w) (or_introl eq_refl)) as (c & Hc & info & oovs & o & E1 & E2 & Hinv & Ho & _).
      rewrite (single ch a Ha2 Ha1) in Hc. destruct Hc as [<-|[]].
      exists (mecab_word (t := t) k e o). split.
      * apply H. exists a. split; auto. exists info, oovs, o. split; auto. split; auto. split; auto. split; auto.
        left. split; auto. eapply grouped; eauto.
      * unfold mecab_word, span_word. cbn [set_range w_end]. apply (bow_in_run k e e s); auto; lia.
    + destruct ns as [|w ns]; [congruence|]. exists w. split; [now left|].
      destruct (proj1 (H w) (or_introl eq_refl)) as (c & Hc & Hw).
      apply mecab_offers_span in Hw; [|lia]. destruct Hw as (j & o & Hj & -> & _).
      unfold mecab_word, span_word. cbn [set_range w_end]. apply (bow_in_run k e j s); auto; try lia.
      right. eauto.
Qed.

Lemma oov_total p k h : k < length t -> exists ns, get_oov p it (cs k) h = Ok ns.
Proof.
  intros Hk. destruct p as [sc|mc].
  - destruct (simple_spec B sc k h Hk) as (ns & E & _). eauto.
  - destruct (mecab_spec B mc k h Hk) as (ns & s & e & c0 & E & _). eauto.
Qed.

Lemma oov_words_total ps k : forall h, k < length t -> exists os, oov_words ps it (cs k) h = (os, None).
Proof.
  induction ps as [|p ps IH]; intros h Hk; cbn [oov_words]; [eauto|].
  destruct (oov_total p k h Hk) as (ns & ->). set (h' := (h || _)%bool). destruct (IH h' Hk) as (os & ->). eauto.
Qed.

Lemma oov_words_good ps k : k < length t -> (forall p, In p ps -> In p (cf_providers cfg)) ->
  forall os, oov_words ps it (cs k) false = (os, None) -> os <> [] -> exists w, In w os /\ good_end (w_end w).
Proof.
  intros Hk. induction ps as [|p ps IH]; intros Hps os E Hne; cbn [oov_words] in E; [congruence|].
  destruct (get_oov p it (cs k) false) as [ns|] eqn:Eg; [|discriminate].
  destruct ns as [|w ns].
  - cbn [orb app] in E. destruct (oov_words ps it (cs k) false) as [ms x] eqn:Eo. injection E as <- ->.
    apply IH; auto. intros q Hq. apply Hps. now right.
  - cbn [orb] in E. destruct (oov_words ps it (cs k) true) as [ms x]. injection E as <- ->.
    destruct (provider_good p k (w :: ns)) as (v & Hv & Hg); auto; [apply Hps; now left|discriminate|].
    exists v. split; auto. change (In v ((w :: ns) ++ ms)). apply in_or_app. auto.
Qed.

Lemma lex_words_total i l : (forall wid e, In (wid, e) l -> i < e <= n /\ (-2147483648 <= wid <= 2147483647)%Z /\ exists p, cf_params cfg wid = Ok p) ->
  exists ws, lex_words (cf_params cfg) it i l = (ws, None) /\ forall w, In w ws -> good_end (w_end w).
Proof.
  induction l as [|[wid e] l IH]; intros H; cbn [lex_words]; [exists []; split; auto; intros ? []|].
  destruct IH as (ws & E & Hws); [intros; apply H; now right|].
  destruct (H wid e (or_introl eq_refl)) as (He & Hw & ((lf & r) & c) & Hp).
  assert (Eb : exists b, (if e <? n then can_bow it e else Ok true) = Ok b /\ (b = true -> good_end e)).
  { destruct (Nat.ltb_spec e n).
    - destruct (can_bow_total e H0) as (b & Eb). exists b. split; auto. intros ->. right. auto.
    - exists true. split; auto. intros _. left. lia. }
  destruct Eb as (b & -> & Hg). destruct b; [|eauto].
  rewrite Hp. cbn [bind]. unfold lex_node, to_int.
  destruct ((- 2147483648 <=? wid) && (wid <=? 2147483647))%Z eqn:Ew; [|Zbool; lia]. cbn [bind]. rewrite E.
  eexists. split; [reflexivity|]. intros w [<-|Hin]; [cbn; auto|auto].
Qed.

Variable sc : simple_cfg.
Variable firsts : list provider.
Hypothesis last_simple : cf_providers cfg = firsts ++ [Simple sc].

Lemma candidates_good k : k < length t ->
  snd (run_candidates cfg it (cs k)) = None /\
  exists w, In w (fst (run_candidates cfg it (cs k))) /\ good_end (w_end w).
Proof.
  intros Hk. unfold run_candidates, candidates.
  pose proof (lookup_total (cs k)) as Hx. pose proof (lookup_words (cs k)) as Hlw.
  pose proof (sane_lookup cfg S0 (it_bytes it) (cs k)) as Hrange.
  destruct (cf_lookup cfg (it_bytes it) (cs k)) as [found x0]. cbn [fst snd] in *. subst x0.
  destruct (lex_words_total (cs k) found) as (ws & -> & Hws).
  { intros wid e Hin. split; [apply (Hrange wid e Hin)|]. apply (Hlw wid e Hin). }
  destruct (cats_at B _ _ (in_char_start t k Hk)) as (c0 & _ & ->).
  destruct ws as [|w ws].
  2:{ assert (Ho : exists os, (if cat_mem NOOOVBOW c0 then ([], None) else oov_words (cf_providers cfg) it (cs k) true) = (os, None)).
      { destruct (cat_mem NOOOVBOW c0); [eauto|]. now apply oov_words_total. }
      destruct Ho as (os & ->). cbn [app fst snd]. split; auto. exists w. split; [now left|]. apply Hws. now left. }
  assert (Ho : exists os, (if cat_mem NOOOVBOW c0 then ([], None) else oov_words (cf_providers cfg) it (cs k) false) = (os, None) /\
     (os <> [] -> exists w, In w os /\ good_end (w_end w))).
  { destruct (cat_mem NOOOVBOW c0); [exists []; split; auto; congruence|].
    destruct (oov_words_total (cf_providers cfg) k false Hk) as (os & E). exists os. split; auto.
    intros Hne. eapply oov_words_good; eauto. }
  destruct Ho as (os & -> & Hos). cbn [app]. destruct os as [|w os].
  - unfold default_oov. rewrite last_simple, rev_app_distr. cbn [rev app].
    destruct (simple_spec B sc k false Hk) as (ns' & E' & j & Hj & Hnb & ->). rewrite E'. cbn [fst snd]. split; auto.
    eexists. split; [now left|]. unfold span_word. cbn [set_range w_end].
    destruct Hnb as (_ & [Hb|Hb] & _); [left; auto|right; auto].
  - cbn [fst snd]. split; auto. apply Hos. discriminate.
Qed.

Lemma tiling_from p : good_end p -> p <= n ->
  exists q, tiles p (map to_step q) n /\ Forall (considered (cfg := cfg) (it := it)) q.
Proof.
  remember (n - p) as d eqn:Ed. revert p Ed. induction d as [d IH] using lt_wf_ind. intros p Ed Hg Hp.
  destruct (Nat.eq_dec p n) as [->|Hne].
  - exists []. split; [reflexivity|constructor].
  - destruct Hg as [Hg|Hg]; [congruence|].
    destruct (bow_start B p Hg) as (k & Hk & ->).
    destruct (candidates_good k Hk) as (_ & w & Hw & Hgw).
    assert (Hcw : considered (cfg := cfg) (it := it) w).
    { pose proof (cands_begin' _ _ Hw) as Hb. split; [lia|]. rewrite Hb. auto. }
    pose proof (considered_range S0 B w Hcw) as Hr. pose proof (cands_begin' _ _ Hw) as Hb.
    destruct (IH (n - w_end w)) with (p := w_end w) as (q & Q1 & Q2); auto; [lia|lia|].
    exists (w :: q). split; [|constructor; auto]. cbn. repeat split; auto; lia.
Qed.
End total.
