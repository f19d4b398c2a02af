(** Proofs about the OOV providers on a built input text. *)
From Coq Require Import List ZArith Lia Bool Arith.
From Verif Require Import Base Utf8 M_Builder M_InputText M_Lattice M_Oov S_Text P_Builder P_InputText P_Accessors.
Import ListNotations.
Open Scope nat_scope.

Section oov.
Context {t orig : text} {m2o : list nat} {cats : list (list cat)} {it : input_text}.
Context (B : built t orig m2o cats it).

Notation cs := (char_start t).

(** The OOV word for the characters [k], ..., [j]-1. *)
Definition span_word (left right cost pos : Z) (k j : nat) : wnode :=
  set_range (oov_node (slice t k j) (cs j - cs k) left right cost pos) (cs k) (cs j).

Lemma add_sub_start k j : k <= j -> cs k + (cs j - cs k) = cs j.
Proof. intros H. pose proof (char_start_mono t k j H). lia. Qed.

(** ** Simple *)
Lemma simple_spec cfg k has :
  k < length t ->
  exists ns, get_oov (Simple cfg) it (cs k) has = Ok ns /\
    if has then ns = []
    else exists j, k < j <= length t /\ next_bow (it := it) (cs k) (cs j) /\
           ns = [span_word (so_left cfg) (so_right cfg) (so_cost cfg) (so_pos cfg) k j].
Proof.
  intros Hk. unfold get_oov, provide_oov, simple_provide. destruct has; cbn [negb bind map].
  { eauto. }
  pose proof (in_char_start t k Hk) as Hin. pose proof (in_char_lt B _ _ Hin) as Hlt.
  destruct (word_candidate_spec B _ Hlt) as (l & El & Hnb). rewrite El. cbn [bind].
  assert (Hj : exists j, j <= length t /\ cs k + l = cs j).
  { pose proof Hnb as ((Hb1 & Hb2) & Hb3 & _). destruct Hb3 as [Hb3|Hb3].
    - exists (length t). split; auto. rewrite (len_bytes B). exact Hb3.
    - assert (Hlt' : cs k + l < length (it_bytes it)).
      { unfold can_bow in Hb3. apply bind_ok in Hb3 as (x & Hx & _). now apply get_ok_lt in Hx. }
      destruct (in_char_exists t _ _ (bt_enc B) Hlt') as (j & Hj).
      destruct (can_bow_spec B _ _ Hj) as (b & Eb & Hb). rewrite Eb in Hb3. injection Hb3 as ->.
      exists j. destruct Hj as (Hj & _). split; [lia|]. now apply Hb. }
  destruct Hj as (j & Hjl & Hj). rewrite Hj in Hnb |- *.
  assert (Hkj : k < j) by (destruct Hnb as ((H & _) & _); now apply char_start_lt_inv in H).
  rewrite (substring_spec B k j) by lia. cbn [bind].
  eexists. split; [reflexivity|]. exists j. split; [lia|]. split; [exact Hnb|].
  cbn [map set_word_info w_extra oov_node oov_info wi_length].
  unfold span_word. rewrite Hj. replace l with (cs j - cs k) by lia. reflexivity.
Qed.

(** ** MeCab *)
Definition mecab_word (k j : nat) (o : oov_entry) : wnode :=
  span_word (oe_left o) (oe_right o) (oe_cost o) (oe_pos o) k j.

Lemma mecab_word_eq k j o : k <= j ->
  set_range (mecab_node (slice t k j) (cs j - cs k) o) (cs k)
    (cs k + match w_extra (mecab_node (slice t k j) (cs j - cs k) o) with Some wi => wi_length wi | None => 0 end)
  = mecab_word k j o.
Proof.
  intros H. unfold mecab_word, span_word, mecab_node.
  cbn [set_word_info w_extra oov_node oov_info wi_length]. now rewrite add_sub_start.
Qed.

Lemma mecab_lengths_spec k oovs L m : forall i,
  k < length t -> 1 <= i ->
  exists ns, mecab_lengths it (cs k) oovs L i m = Ok ns /\
    forall w, In w ns <-> exists i' o, i <= i' < i + m /\
      (Z.of_nat (cs (min (k + i') (length t)) - cs k) <= L)%Z /\ In o oovs /\
      w = mecab_node (slice t k (min (k + i') (length t))) (cs (min (k + i') (length t)) - cs k) o.
Proof.
  induction m as [|m IH]; intros i Hk Hi; cbn [mecab_lengths].
  { exists []. split; auto. intros w. split; [intros []|]. intros (i' & o & H & _). lia. }
  rewrite (code_points_offset_spec B (cs k) k i (in_char_start t k Hk) Hi). cbn [bind].
  set (j := min (k + i) (length t)).
  assert (Hkj : k <= j) by lia. pose proof (char_start_mono t k j Hkj).
  destruct (Z.ltb_spec L (Z.of_nat (cs j - cs k))) as [Hlt|Hge].
  - exists []. split; auto. intros w. split; [intros []|].
    intros (i' & o & H1 & H2 & _).
    pose proof (char_start_mono t j (min (k + i') (length t)) ltac:(lia)). lia.
  - rewrite add_sub_start by auto. rewrite (substring_spec B k j) by lia. cbn [bind].
    destruct (IH (S i) Hk ltac:(lia)) as (ns & E & Hns). rewrite E. cbn [bind].
    eexists. split; [reflexivity|]. intros w. rewrite in_app_iff, Hns, in_map_iff. split.
    + intros [(o & <- & Ho)|(i' & o & H1 & H2 & H3 & H4)].
      * exists i, o. repeat split; auto; lia.
      * exists i', o. repeat split; auto; lia.
    + intros (i' & o & H1 & H2 & H3 & H4). destruct (Nat.eq_dec i' i) as [->|Hne].
      * left. exists o. split; auto.
      * right. exists i', o. repeat split; auto; lia.
Qed.

(** What the body of the loop over the categories adds for category [c], when the
    run ends at character [e]. *)
Definition mecab_offers (cfg : mecab_cfg) (k e : nat) (has : bool) (c : cat) (w : wnode) : Prop :=
  exists info oovs o, mc_info cfg c = Some info /\ mc_oovs cfg c = Some oovs /\
    (ci_invoke info = true \/ has = false) /\ In o oovs /\
    ((ci_group info = true /\ w = mecab_word k e o) \/
     (exists i, 1 <= i /\ (Z.of_nat i <= ci_length info)%Z /\
        (Z.of_nat (cs (min (k + i) (length t)) - cs k)
         <= Z.of_nat (cs e - cs k) - (if ci_group info then Z.of_nat (length oovs) else 0))%Z /\
        w = mecab_word k (min (k + i) (length t)) o)).

Lemma mecab_category_spec cfg k e has c :
  k < length t -> k < e <= length t ->
  exists ns, mecab_category cfg it (cs k) (cs e - cs k) has c = Ok ns /\
    forall w, In w (map (fun w => set_range w (cs k) (cs k + match w_extra w with Some wi => wi_length wi | None => 0 end)) ns)
      <-> mecab_offers cfg k e has c w.
Proof.
  intros Hk He. unfold mecab_category, mecab_offers.
  destruct (mc_info cfg c) as [info|].
  2:{ exists []. split; auto. intros w. split; [intros []|]. intros (? & ? & ? & ? & _). discriminate. }
  destruct (mc_oovs cfg c) as [oovs|].
  2:{ exists []. split; auto. intros w. split; [intros []|]. intros (? & ? & ? & ? & ? & _). discriminate. }
  destruct (negb (ci_invoke info) && has) eqn:Einv.
  { exists []. split; auto. intros w. split; [intros []|].
    intros (? & ? & ? & [= <-] & [= <-] & Hinv & _).
    apply andb_true_iff in Einv as (H1 & H2). apply negb_true_iff in H1. destruct Hinv; congruence. }
  assert (Hinv : ci_invoke info = true \/ has = false).
  { apply andb_false_iff in Einv as [H|H]; auto. apply negb_false_iff in H. auto. }
  assert (Hg : (if ci_group info
                then s <- get_substring it (Z.of_nat (cs k)) (Z.of_nat (cs k + (cs e - cs k))) ;;
                     Ok (map (mecab_node s (cs e - cs k)) oovs)
                else Ok []) = Ok (if ci_group info then map (mecab_node (slice t k e) (cs e - cs k)) oovs else [])).
  { destruct (ci_group info); auto. rewrite add_sub_start, (substring_spec B k e) by lia. reflexivity. }
  rewrite Hg. cbn [bind].
  set (L := if ci_group info then (Z.of_nat (cs e - cs k) - Z.of_nat (length oovs))%Z else Z.of_nat (cs e - cs k)).
  destruct (mecab_lengths_spec k oovs L (Z.to_nat (ci_length info)) 1 Hk (le_n 1)) as (ns & E & Hns).
  rewrite E. cbn [bind]. eexists. split; [reflexivity|].
  assert (HL : L = (Z.of_nat (cs e - cs k) - (if ci_group info then Z.of_nat (length oovs) else 0))%Z).
  { unfold L. destruct (ci_group info); lia. }
  clearbody L. subst L.
  intros w. rewrite map_app, in_app_iff. split.
  - intros [H|H].
    + destruct (ci_group info) eqn:Eg; [|contradiction]. rewrite map_map in H. apply in_map_iff in H as (o & <- & Ho).
      exists info, oovs, o. repeat split; auto. left. split; auto.
      apply mecab_word_eq; lia.
    + apply in_map_iff in H as (w' & <- & H). apply Hns in H as (i & o & H1 & H2 & H3 & ->).
      exists info, oovs, o. repeat split; auto. right. exists i. repeat split; try lia.
      apply mecab_word_eq; lia.
  - intros (? & ? & o & [= <-] & [= <-] & _ & Ho & [(Eg & ->)|(i & H1 & H2 & H3 & ->)]).
    + left. rewrite Eg, map_map. apply in_map_iff. exists o. split; auto. apply mecab_word_eq; lia.
    + right. apply in_map_iff. eexists. split; [apply mecab_word_eq; lia|]. apply Hns.
      exists i, o. repeat split; auto; lia.
Qed.

Lemma mapM_in {A C} (f : A -> res C) (P : A -> C -> Prop) l :
  (forall x, In x l -> exists y, f x = Ok y /\ P x y) ->
  exists ys, mapM f l = Ok ys /\ Forall2 P l ys.
Proof.
  induction l as [|x l IH]; simpl; intros H.
  - exists []. auto.
  - destruct (H x (or_introl eq_refl)) as (y & -> & Hy).
    destruct IH as (ys & -> & Hys); [intros; apply H; auto|]. cbn. eauto.
Qed.

Lemma mecab_spec cfg k has :
  k < length t ->
  exists ns s e c0, get_oov (MeCab cfg) it (cs k) has = Ok ns /\
    run_start cats s /\ is_run cats s e /\ s <= k < e /\ e <= length t /\ nth_error cats k = Some c0 /\
    forall w, In w ns <-> exists c, In c c0 /\ mecab_offers cfg k e has c w.
Proof.
  intros Hk. pose proof (in_char_start t k Hk) as Hin.
  destruct (cont_length B _ _ Hin) as (s & e & Hs & He & Hse & Ecl & Hlt).
  assert (Hel : e <= length t). { destruct He as ((_ & H) & _). rewrite (bt_cats_len B) in H. exact H. }
  destruct (cats_at B _ _ Hin) as (c0 & Ec0 & Eg).
  unfold get_oov, provide_oov, mecab_provide. rewrite Ecl. cbn [bind].
  destruct (Nat.ltb_spec (cs e - cs k) 1) as [?|_]; [lia|]. rewrite Eg. cbn [bind].
  destruct (mapM_in (mecab_category cfg it (cs k) (cs e - cs k) has)
    (fun c ns => forall w, In w (map (fun w => set_range w (cs k) (cs k + match w_extra w with Some wi => wi_length wi | None => 0 end)) ns)
      <-> mecab_offers cfg k e has c w) c0) as (nss & E & HF).
  { intros c _. apply mecab_category_spec; lia. }
  rewrite E. cbn [bind]. eexists _, s, e, c0. split; [reflexivity|]. repeat split; auto; try apply He; try lia.
  - rewrite concat_map. intros H. apply in_concat in H as (l & Hl & Hw). apply in_map_iff in Hl as (ns & <- & Hns).
    clear - HF Hns Hw. induction HF as [|c ns' c0 nss Hc HF IH]; [contradiction|].
    destruct Hns as [->|Hns].
    + exists c. split; [now left|]. now apply Hc.
    + destruct (IH Hns) as (c' & H1 & H2). exists c'. split; [now right|auto].
  - intros (c & Hc & Hw). rewrite concat_map. apply in_concat.
    clear - HF Hc Hw. induction HF as [|c' ns' c0 nss Hc' HF IH]; [contradiction|].
    destruct Hc as [->|Hc].
    + eexists. split; [now left|]. now apply Hc'.
    + destruct (IH Hc) as (l & H1 & H2). exists l. split; [now right|auto].
Qed.

(** Every MeCab candidate is a non-empty prefix of what is left of the run. *)
Lemma mecab_offers_span cfg k e has c w :
  k < e <= length t -> mecab_offers cfg k e has c w ->
  exists j o, k < j <= e /\ w = mecab_word k j o /\
    (exists oovs, mc_oovs cfg c = Some oovs /\ In o oovs).
Proof.
  intros Hk (info & oovs & o & E1 & E2 & _ & Ho & [(Eg & ->)|(i & H1 & H2 & H3 & ->)]).
  - exists e, o. split; [lia|]. eauto.
  - exists (min (k + i) (length t)), o. split; [|eauto]. split; [lia|].
    apply (char_start_le_inv t); [lia|].
    pose proof (char_start_mono t k (min (k + i) (length t)) ltac:(lia)).
    pose proof (char_start_mono t k e ltac:(lia)).
    destruct (ci_group info); lia.
Qed.
End oov.
