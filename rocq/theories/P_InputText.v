(** Proofs about [build] and the accessors of the input text. *)
From Coq Require Import List ZArith Lia Bool Arith Sorted.
From Verif Require Import Base Utf8 M_Builder M_InputText S_Text P_Builder.
Import ListNotations.
Open Scope nat_scope.

(** * Character positions *)

Lemma utf8_byte_length_spec c : is_scalar c = true -> utf8_byte_length c = length (encode_cp c).
Proof.
  intros H. apply is_scalar_range in H. unfold utf8_byte_length, encode_cp.
  destruct (Z.ltb_spec c 0); [lia|].
  destruct (Z.leb_spec c 127); [reflexivity|].
  destruct (Z.leb_spec c 2047); [reflexivity|].
  destruct (Z.leb_spec c 65535); [reflexivity|].
  destruct (Z.leb_spec c 1114111); [reflexivity|lia].
Qed.

Lemma char_start_0 t : char_start t 0 = 0.
Proof. reflexivity. Qed.

Lemma char_start_S t k c :
  nth_error t k = Some c -> char_start t (S k) = char_start t k + length (encode_cp c).
Proof.
  intros H. unfold char_start. rewrite (firstn_S_nth _ _ _ H), map_app, list_sum_app. simpl. lia.
Qed.

Lemma char_start_cons c t k : char_start (c :: t) (S k) = length (encode_cp c) + char_start t k.
Proof. reflexivity. Qed.

Lemma char_start_all t k b : encode t = Ok b -> length t <= k -> char_start t k = length b.
Proof.
  intros H Hk. unfold char_start. rewrite firstn_all2 by lia.
  revert b H. clear k Hk. induction t; simpl; intros b H.
  - inversion H. reflexivity.
  - destruct (is_scalar a); [|discriminate]. apply bind_ok in H as (b' & Hb & [= <-]).
    rewrite app_length, (IHt _ Hb). reflexivity.
Qed.

Lemma char_start_step t k : k < length t -> char_start t k < char_start t (S k).
Proof.
  intros H. destruct (nth_error t k) eqn:E; [|apply nth_error_None in E; lia].
  rewrite (char_start_S _ _ _ E). pose proof (encode_cp_nonempty z). lia.
Qed.

Lemma char_start_mono t i j : i <= j -> char_start t i <= char_start t j.
Proof.
  intros H. induction H; [lia|].
  destruct (le_lt_dec (length t) m).
  - unfold char_start in *. rewrite (firstn_all2 (n := S m)) by lia.
    rewrite (firstn_all2 (n := m)) in IHle by lia. auto.
  - pose proof (char_start_step t m l). lia.
Qed.

Lemma char_start_lt t i j : i < j -> j <= length t -> char_start t i < char_start t j.
Proof.
  intros H Hj. apply Nat.lt_le_trans with (char_start t (S i)).
  - apply char_start_step. lia.
  - apply char_start_mono. lia.
Qed.

Lemma char_start_inj t i j :
  i <= length t -> j <= length t -> char_start t i = char_start t j -> i = j.
Proof.
  intros Hi Hj E. destruct (lt_eq_lt_dec i j) as [[H|H]|H]; auto.
  - pose proof (char_start_lt t i j H Hj). lia.
  - pose proof (char_start_lt t j i H Hi). lia.
Qed.

Lemma char_start_le_inv t i j : i <= length t -> char_start t i <= char_start t j -> i <= j.
Proof.
  intros Hi E. destruct (le_lt_dec i j); auto.
  pose proof (char_start_lt t j i l Hi). lia.
Qed.

Lemma char_start_lt_inv t i j : char_start t i < char_start t j -> i < j.
Proof.
  intros E. destruct (le_lt_dec j i); auto.
  pose proof (char_start_mono t j i l). lia.
Qed.

Lemma in_char_exists t b p : encode t = Ok b -> p < length b -> exists k, in_char t p k.
Proof.
  intros He Hp.
  assert (H : forall n, n <= length t -> char_start t n <= p \/ exists k, k < n /\ in_char t p k).
  { induction n; intros Hn.
    - left. rewrite char_start_0. lia.
    - destruct IHn as [H|(k & Hk & H)]; [lia| |].
      + destruct (le_lt_dec (char_start t (S n)) p); [auto|].
        right. exists n. repeat split; auto; lia.
      + right. exists k. split; [lia|auto]. }
  destruct (H (length t) (le_n _)) as [H1|(k & _ & H1)]; eauto.
  rewrite (char_start_all _ _ _ He) in H1 by lia. lia.
Qed.

Lemma in_char_unique t p k1 k2 : in_char t p k1 -> in_char t p k2 -> k1 = k2.
Proof.
  intros (H1 & A1 & B1) (H2 & A2 & B2).
  destruct (lt_eq_lt_dec k1 k2) as [[H|H]|H]; auto.
  - pose proof (char_start_mono t (S k1) k2 H). lia.
  - pose proof (char_start_mono t (S k2) k1 H). lia.
Qed.

Lemma in_char_start t k : k < length t -> in_char t (char_start t k) k.
Proof. intros. repeat split; auto. now apply char_start_step. Qed.

(** * The arrays filled by [build] *)

(** The concatenation of [v] repeated once per byte of its character. *)
Fixpoint expand (vals : list nat) (t : text) : list nat :=
  match vals, t with
  | v :: vs, c :: r => repeat v (utf8_byte_length c) ++ expand vs r
  | _, _ => []
  end.

Lemma fill_spec k v1 v2 p1 p2 z1 z2 :
  length p1 = length p2 -> k <= length z1 -> k <= length z2 ->
  fill k (length p1) v1 v2 (p1 ++ z1) (p2 ++ z2)
  = Ok (length p1 + k, (p1 ++ repeat v1 k) ++ skipn k z1, (p2 ++ repeat v2 k) ++ skipn k z2).
Proof.
  revert p1 p2 z1 z2. induction k; intros p1 p2 z1 z2 Hl H1 H2; cbn [fill repeat].
  - simpl. now rewrite !app_nil_r, Nat.add_0_r.
  - destruct z1 as [|x1 z1], z2 as [|x2 z2]; simpl in H1, H2; try lia.
    rewrite set_nth_app. cbn [bind]. rewrite Hl at 1. rewrite set_nth_app. cbn [bind].
    replace (p1 ++ v1 :: z1) with ((p1 ++ [v1]) ++ z1) by (rewrite <- app_assoc; reflexivity).
    replace (p2 ++ v2 :: z2) with ((p2 ++ [v2]) ++ z2) by (rewrite <- app_assoc; reflexivity).
    replace (S (length p1)) with (length (p1 ++ [v1])) by (rewrite app_length; simpl; lia).
    rewrite IHk; try (rewrite ?app_length; simpl; lia).
    rewrite app_length. cbn [length skipn]. f_equal. f_equal; [f_equal|].
    + lia.
    + rewrite <- !app_assoc. reflexivity.
    + rewrite <- !app_assoc. reflexivity.
Qed.

Lemma fill_all_spec t i m2o p1 p2 z1 z2 vals :
  length p1 = length p2 ->
  (forall j, j < length t -> exists o, nth_error m2o (i + j) = Some o /\ nth_error vals j = Some o) ->
  length vals = length t ->
  list_sum (map utf8_byte_length t) <= length z1 ->
  list_sum (map utf8_byte_length t) <= length z2 ->
  fill_all t i m2o (length p1) (p1 ++ z1) (p2 ++ z2)
  = Ok (p1 ++ expand (seq i (length t)) t ++ skipn (list_sum (map utf8_byte_length t)) z1,
        p2 ++ expand vals t ++ skipn (list_sum (map utf8_byte_length t)) z2).
Proof.
  revert i p1 p2 z1 z2 vals. induction t as [|c t IH]; intros i p1 p2 z1 z2 vals Hl Hv Hlv H1 H2.
  - destruct vals; [|discriminate]. reflexivity.
  - destruct vals as [|v vals]; [discriminate|].
    cbn [fill_all length seq expand map] in *.
    change (list_sum (utf8_byte_length c :: map utf8_byte_length t)) with
      (utf8_byte_length c + list_sum (map utf8_byte_length t)) in *.
    destruct (Hv 0 ltac:(simpl; lia)) as (o & Ho1 & Ho2). rewrite Nat.add_0_r in Ho1.
    simpl in Ho2. injection Ho2 as <-.
    unfold get. rewrite Ho1. cbn [bind].
    rewrite fill_spec by (auto; lia). cbn [bind].
    replace (length p1 + utf8_byte_length c) with (length (p1 ++ repeat i (utf8_byte_length c)))
      by (rewrite app_length, repeat_length; lia).
    rewrite IH with (vals := vals).
    + rewrite <- !app_assoc, !skipn_skipn'.
      rewrite (Nat.add_comm (list_sum _) (utf8_byte_length c)). reflexivity.
    + rewrite !app_length, !repeat_length. lia.
    + intros j Hj. destruct (Hv (S j) ltac:(simpl; lia)) as (o & Ho & Ho').
      exists o. split; [rewrite <- Ho; f_equal; lia|exact Ho'].
    + simpl in Hlv. lia.
    + rewrite skipn_length. lia.
    + rewrite skipn_length. lia.
Qed.

Lemma sum_lengths t b :
  encode t = Ok b -> list_sum (map utf8_byte_length t) = length b.
Proof.
  revert b. induction t; simpl; intros b H.
  - inversion H. reflexivity.
  - destruct (is_scalar a) eqn:E; [|discriminate]. apply bind_ok in H as (b' & Hb & [= <-]).
    rewrite app_length, (IHt _ Hb), (utf8_byte_length_spec _ E). reflexivity.
Qed.

Lemma expand_nth t vals p k :
  scalar_text t -> length vals = length t -> in_char t p k ->
  nth_error (expand vals t) p = nth_error vals k.
Proof.
  revert vals p k. induction t as [|c t IH]; intros vals p k Hs Hl (Hk & H1 & H2).
  - simpl in Hk. lia.
  - destruct vals as [|v vals]; [discriminate|]. inversion Hs; subst.
    cbn [expand]. rewrite (utf8_byte_length_spec _ H3).
    destruct k as [|k].
    + rewrite char_start_cons, char_start_0 in H2.
      rewrite nth_error_app1 by (rewrite repeat_length; lia).
      simpl. apply nth_error_repeat. lia.
    + rewrite !char_start_cons in H1. rewrite char_start_cons in H2.
      rewrite nth_error_app2 by (rewrite repeat_length; lia).
      rewrite repeat_length. simpl (nth_error (v :: vals) (S k)).
      apply IH; auto.
      simpl in Hk. repeat split; lia.
Qed.

Lemma expand_length t vals b :
  encode t = Ok b -> length vals = length t -> length (expand vals t) = length b.
Proof.
  intros He Hl. rewrite <- (sum_lengths _ _ He). clear He b. revert vals Hl.
  induction t; destruct vals; simpl; intros Hl; try discriminate; auto.
  rewrite app_length, repeat_length, IHt by lia. reflexivity.
Qed.

(** * Categories *)

Lemma cat_mem_In c s : cat_mem c s = true <-> In c s.
Proof.
  unfold cat_mem. rewrite existsb_exists. unfold cat_eqb. split.
  - intros (x & H & E). destruct (cat_eq_dec c x); [subst; auto|discriminate].
  - intros H. exists c. split; auto. destruct (cat_eq_dec c c); congruence.
Qed.

Lemma cat_inter_In c a b : In c (cat_inter a b) <-> In c a /\ In c b.
Proof. unfold cat_inter. rewrite filter_In, cat_mem_In. reflexivity. Qed.

Lemma cat_and_ok a b : b <> [] -> cat_and a b = Ok (cat_inter a b).
Proof. destruct b; [congruence|reflexivity]. Qed.

Definition nonempty_cats (cats : list (list cat)) : Prop := Forall (fun c => c <> []) cats.

(** [cont_loop cur rest k]: [cur] = categories shared by the first [k]. *)
Lemma cont_loop_spec cats cur rest k :
  nonempty_cats cats -> cur <> [] -> 1 <= k ->
  skipn k cats = rest -> k <= length cats ->
  (forall c, In c cur <-> shared cats 0 k c) ->
  exists e, cont_loop cur rest k = Ok e /\ is_run cats 0 e.
Proof.
  revert cur k. induction rest as [|r rest IH]; intros cur k Hne Hcur Hk Hsk Hkl Hsh; cbn [cont_loop].
  - exists k. split; auto.
    assert (k = length cats).
    { apply (f_equal (@length _)) in Hsk. rewrite skipn_length in Hsk. simpl in Hsk. lia. }
    repeat split; try lia.
    destruct cur as [|c cur]; [congruence|]. exists c. apply Hsh. now left.
  - assert (Hn : nth_error cats k = Some r).
    { replace k with (k + 0) by lia. rewrite <- nth_error_skipn', Hsk. reflexivity. }
    assert (Hr : r <> []).
    { eapply Forall_forall in Hne; [exact Hne|]. eapply nth_error_In; eauto. }
    rewrite cat_and_ok by auto. cbn [bind].
    assert (Hsh' : forall c, In c (cat_inter cur r) <-> shared cats 0 (S k) c).
    { intros c. rewrite cat_inter_In, Hsh. split.
      - intros (A & B) j Hj. destruct (Nat.eq_dec j k) as [->|]; [eauto|]. apply A. lia.
      - intros A. split.
        + intros j Hj. apply A. lia.
        + destruct (A k ltac:(lia)) as (cs & E & I). congruence. }
    assert (Hlt : k < length cats) by (apply nth_error_Some; congruence).
    destruct (cat_inter cur r) as [|c0 cs] eqn:E.
    + exists k. split; auto. repeat split; try lia.
      * destruct cur as [|c cur]; [congruence|]. exists c. apply Hsh. now left.
      * right. intros c Hc. apply Hsh' in Hc. destruct Hc.
    + apply IH; auto; try lia; try congruence.
      replace (S k) with (1 + k) by lia. rewrite <- skipn_skipn', Hsk. reflexivity.
Qed.

Lemma continuous_length_spec cats :
  nonempty_cats cats -> cats <> [] ->
  exists e, continuous_length cats = Ok e /\ is_run cats 0 e.
Proof.
  intros Hne Hc. destruct cats as [|c cats]; [congruence|].
  cbn [continuous_length].
  apply cont_loop_spec; auto; simpl; try lia.
  - inversion Hne; auto.
  - intros x. split.
    + intros Hx j Hj. replace j with 0 by lia. simpl. eauto.
    + intros H. destruct (H 0 ltac:(lia)) as (cs & E & I). simpl in E. congruence.
Qed.

Lemma shared_skipn {C} (cats : list (list C)) n s e c :
  shared (skipn n cats) s e c <-> shared cats (n + s) (n + e) c.
Proof.
  split; intros H j Hj.
  - destruct (H (j - n) ltac:(lia)) as (cs & E & I). rewrite nth_error_skipn' in E.
    replace (n + (j - n)) with j in E by lia. eauto.
  - rewrite nth_error_skipn'. apply H. lia.
Qed.

Lemma is_run_skipn {C} (cats : list (list C)) n s e :
  n <= length cats ->
  is_run (skipn n cats) s e <-> is_run cats (n + s) (n + e).
Proof.
  intros Hn. unfold is_run. rewrite skipn_length.
  assert (Hs : forall a b c, shared (skipn n cats) a b c <-> shared cats (n + a) (n + b) c)
    by (intros; apply shared_skipn).
  split; intros (A & (c & B) & D).
  - repeat split; try lia.
    + exists c. now apply Hs.
    + destruct D as [D|D]; [left; lia|right]. intros c' Hc'. apply (D c'). apply Hs.
      now rewrite Nat.add_succ_r.
  - repeat split; try lia.
    + exists c. now apply Hs.
    + destruct D as [D|D]; [left; lia|right]. intros c' Hc'. apply (D c'). apply Hs in Hc'.
      now rewrite Nat.add_succ_r in Hc'.
Qed.

Lemma countdown_length n : length (countdown n) = n.
Proof. induction n; simpl; auto. Qed.

Lemma countdown_nth n p : p < n -> nth_error (countdown n) p = Some (n - p).
Proof.
  revert p. induction n; intros p H; [lia|].
  destruct p; simpl; auto. rewrite IHn by lia. reflexivity.
Qed.

Lemma char_start_skipn t n k :
  n <= length t -> char_start t (n + k) = char_start t n + char_start (skipn n t) k.
Proof.
  intros H. unfold char_start.
  rewrite <- list_sum_app, <- map_app. f_equal. f_equal.
  revert n H. induction t; destruct n; simpl; intros H; auto; try lia.
  f_equal. apply IHt. lia.
Qed.

Lemma sum_firstn_char_start t n :
  scalar_text t -> list_sum (map utf8_byte_length (firstn n t)) = char_start t n.
Proof.
  intros H. unfold char_start. f_equal. apply map_ext_in. intros c Hc.
  apply utf8_byte_length_spec. eapply Forall_forall in H; eauto.
  revert Hc. clear. revert n. induction t; destruct n; simpl; intuition; eauto.
Qed.

(** What the continuity table contains, from a run start [n0] on. *)
Lemma continuities_spec fuel n0 T C :
  scalar_text T -> nonempty_cats C -> length C = length T ->
  n0 <= length T -> length T - n0 <= fuel -> run_start C n0 ->
  exists l, continuities fuel (skipn n0 T) (skipn n0 C) = Ok l /\
    char_start T n0 + length l = char_start T (length T) /\
    forall p k, in_char T p k -> n0 <= k ->
      exists s e, run_start C s /\ is_run C s e /\ s <= k < e /\
        nth_error l (p - char_start T n0) = Some (char_start T e - p).
Proof.
  intros HsT HneC HlC.
  revert n0. induction fuel as [|f IH]; intros n0 Hn0 Hfuel Hrs.
  - assert (n0 = length T) by lia. subst n0.
    rewrite !skipn_all2 by lia. simpl. exists []. split; [reflexivity|].
    split; [simpl; lia|]. intros p k (Hk & _) Hk0. lia.
  - destruct (Nat.eq_dec n0 (length T)) as [->|Hn].
    + rewrite !skipn_all2 by lia. simpl. exists []. split; [reflexivity|].
      split; [simpl; lia|]. intros p k (Hk & _) Hk0. lia.
    + assert (Hlt : n0 < length T) by lia.
      assert (HneC' : nonempty_cats (skipn n0 C)).
      { apply Forall_forall. intros x Hx. eapply Forall_forall in HneC; [exact HneC|].
        rewrite <- (firstn_skipn n0 C). apply in_or_app. now right. }
      assert (Hnn : skipn n0 C <> []).
      { intros E. apply (f_equal (@length _)) in E. rewrite skipn_length in E. simpl in E. lia. }
      destruct (continuous_length_spec _ HneC' Hnn) as (n & En & Hrun).
      apply is_run_skipn in Hrun; [|lia]. rewrite Nat.add_0_r in Hrun.
      pose proof Hrun as ((Hr1 & Hr2) & _).
      destruct (IH (n0 + n) ltac:(lia) ltac:(lia) (rs_next _ _ _ Hrs Hrun)) as (l & El & Hl & Hnth).
      assert (Hc0 : char_start T (n0 + n) = char_start T n0 + char_start (skipn n0 T) n)
        by (apply char_start_skipn; lia).
      assert (Hst : scalar_text (skipn n0 T)).
      { apply Forall_forall. intros x Hx. eapply Forall_forall in HsT; [exact HsT|].
        rewrite <- (firstn_skipn n0 T). apply in_or_app. now right. }
      destruct (skipn n0 C) as [|c0 cs] eqn:Esk; [congruence|].
      cbn [continuities]. rewrite En. cbn [bind].
      rewrite (sum_firstn_char_start _ _ Hst).
      rewrite <- Esk. rewrite !skipn_skipn'. rewrite (Nat.add_comm n n0), El. cbn [bind].
      eexists. split; [reflexivity|].
      rewrite app_length, countdown_length. split; [lia|].
      intros p k Hin Hk0.
      destruct (le_lt_dec (n0 + n) k) as [Hk|Hk].
      * destruct (Hnth p k Hin Hk) as (s & e & Hs & He & Hse & Hv).
        exists s, e. repeat split; auto; try lia; try apply He.
        pose proof Hin as (_ & Hp & _). pose proof (char_start_mono T _ _ Hk).
        rewrite nth_error_app2 by (rewrite countdown_length; lia).
        rewrite countdown_length, <- Hv. f_equal. lia.
      * exists n0, (n0 + n). repeat split; auto; try lia; try apply Hrun.
        destruct Hin as (Hkl & Hp1 & Hp2).
        pose proof (char_start_mono T _ _ Hk0).
        pose proof (char_start_mono T _ _ Hk).
        rewrite nth_error_app1 by (rewrite countdown_length; lia).
        rewrite countdown_nth by lia. f_equal. lia.
Qed.

(** * Word starts *)

(** Can a word begin at character [k]?  (README/char.def: a word does not begin
    inside an alphabetic run.) *)
Definition bow_at (cats : list (list cat)) (k : nat) : Prop :=
  match k with
  | O => True
  | S j => forall c prev, nth_error cats k = Some c -> nth_error cats j = Some prev ->
      (In ALPHA c \/ In GREEK c \/ In CYRILLIC c) -> forall x, In x c -> ~ In x prev
  end.

Lemma bow_loop_spec cats pre prev rest :
  nonempty_cats cats -> cats = pre ++ prev :: rest ->
  exists l, bow_loop prev rest = Ok l /\ length l = length rest /\
    forall k b, nth_error l k = Some b -> (b = true <-> bow_at cats (length pre + 1 + k)).
Proof.
  intros Hne. revert pre prev. induction rest as [|c rest IH]; intros pre prev E; cbn [bow_loop].
  - exists []. repeat split; auto; destruct k; discriminate.
  - assert (Hc : nth_error cats (length pre + 1) = Some c).
    { rewrite E, nth_error_app2 by lia. replace (length pre + 1 - length pre) with 1 by lia. reflexivity. }
    assert (Hp : nth_error cats (length pre) = Some prev).
    { rewrite E, nth_error_app2 by lia. now rewrite Nat.sub_diag. }
    assert (Hpne : prev <> []).
    { eapply Forall_forall in Hne; [exact Hne|]. eapply nth_error_In; eauto. }
    destruct (IH (pre ++ [prev]) c) as (l & El & Hl & Hn).
    { rewrite E, <- app_assoc. reflexivity. }
    rewrite El. rewrite (cat_and_ok _ _ Hpne). cbn [bind].
    assert (Hb : exists b, (if cat_mem ALPHA c || cat_mem GREEK c || cat_mem CYRILLIC c
          then Ok (match cat_inter c prev with [] => true | _ => false end)
          else Ok true) = Ok b /\ (b = true <-> bow_at cats (length pre + 1 + 0))).
    { rewrite Nat.add_0_r.
      assert (Hbow : bow_at cats (length pre + 1) <->
         ((In ALPHA c \/ In GREEK c \/ In CYRILLIC c) -> forall x, In x c -> ~ In x prev)).
      { rewrite Nat.add_1_r in Hc. rewrite Nat.add_1_r. cbn [bow_at]. rewrite Hc, Hp. split.
        - intros H. apply H; auto.
        - intros H c' p' [= <-] [= <-]. auto. }
      destruct (cat_mem ALPHA c || cat_mem GREEK c || cat_mem CYRILLIC c) eqn:Em.
      - eexists. split; [reflexivity|]. rewrite Hbow.
        assert (Ha : In ALPHA c \/ In GREEK c \/ In CYRILLIC c).
        { apply orb_true_iff in Em as [Em|Em]; [apply orb_true_iff in Em as [Em|Em]|];
          apply cat_mem_In in Em; auto. }
        destruct (cat_inter c prev) as [|x xs] eqn:Ei; split; intros H; try discriminate; auto.
        + intros _ x Hx Hx'. assert (Hi : In x (cat_inter c prev)) by (apply cat_inter_In; auto).
          rewrite Ei in Hi. destruct Hi.
        + exfalso. assert (Hi : In x (cat_inter c prev)) by (rewrite Ei; now left).
          apply cat_inter_In in Hi as [Hi1 Hi2]. eapply H; eauto.
      - eexists. split; [reflexivity|]. rewrite Hbow. split; auto.
        intros _ Ha. exfalso.
        assert (Hf : cat_mem ALPHA c || cat_mem GREEK c || cat_mem CYRILLIC c = true).
        { rewrite !orb_true_iff, !cat_mem_In. tauto. }
        congruence. }
    destruct Hb as (b & Eb & Hb). cbn [bind] in *. rewrite Eb. cbn [bind].
    exists (b :: l). repeat split; simpl; auto; intros Hx.
    + destruct k; simpl in H.
      * injection H as <-. now apply Hb.
      * rewrite app_length in Hn. simpl in Hn. apply (Hn _ _ H) in Hx.
        replace (length pre + 1 + S k) with (length pre + 1 + 1 + k) by lia. auto.
    + destruct k; simpl in H.
      * injection H as <-. now apply Hb.
      * rewrite app_length in Hn. simpl in Hn. apply (Hn _ _ H).
        replace (length pre + 1 + S k) with (length pre + 1 + 1 + k) in Hx by lia. auto.
Qed.

Lemma build_can_bow_list_spec cats :
  nonempty_cats cats ->
  exists l, build_can_bow_list cats = Ok l /\ length l = length cats /\
    forall k b, nth_error l k = Some b -> (b = true <-> bow_at cats k).
Proof.
  intros Hne. destruct cats as [|c r].
  - exists []. repeat split; auto; destruct k; discriminate.
  - destruct (bow_loop_spec (c :: r) [] c r Hne eq_refl) as (l & El & Hl & Hn).
    cbn [build_can_bow_list]. rewrite El. cbn [bind]. exists (true :: l).
    split; [reflexivity|]. split; [simpl; lia|].
    intros [|k] b Hk; simpl in Hk.
    + injection Hk as <-. simpl. tauto.
    + apply Hn in Hk. simpl in Hk. exact Hk.
Qed.

(** * The built object *)

(** Everything the accessors rely on. *)
Record built (t orig : text) (m2o : list nat) (cats : list (list cat)) (it : input_text) : Prop := {
  bt_scalar : scalar_text t;
  bt_enc : encode t = Ok (it_bytes it);
  bt_mod : it_mod it = t;
  bt_orig : it_orig it = orig;
  bt_cats : it_cats it = cats;
  bt_cats_len : length cats = length t;
  bt_nonempty : nonempty_cats cats;
  bt_bi_len : length (it_byte_indexes it) = S (length (it_bytes it));
  bt_off_len : length (it_offsets it) = S (length (it_bytes it));
  bt_bi : forall p k, in_char t p k -> nth_error (it_byte_indexes it) p = Some k;
  bt_bi_end : nth_error (it_byte_indexes it) (length (it_bytes it)) = Some (length t);
  bt_off : forall p k, in_char t p k -> nth_error (it_offsets it) p = nth_error m2o k;
  bt_off_end : nth_error (it_offsets it) (length (it_bytes it)) = nth_error m2o (length t);
  bt_conts_len : length (it_conts it) = length (it_bytes it);
  bt_conts : forall p k, in_char t p k ->
      exists s e, run_start cats s /\ is_run cats s e /\ s <= k < e /\
        nth_error (it_conts it) p = Some (char_start t e - p);
  bt_bow_len : length (it_bow it) = length t;
  bt_bow : forall k b, nth_error (it_bow it) k = Some b -> (b = true <-> bow_at cats k);
}.

Lemma build_spec category t0 bd :
  builder_wf t0 bd -> scalar_text (b_mod bd) ->
  (forall c, In c (b_mod bd) -> category c <> []) ->
  exists it, build category bd = Ok it /\
    built (b_mod bd) t0 (b_m2o bd) (map category (b_mod bd)) it.
Proof.
  intros (Ho & Hl & H0 & Hn & Hmono) Hs Hcat.
  set (t := b_mod bd) in *. set (m := b_m2o bd) in *.
  destruct (encode_total t Hs) as (bs & Ebs).
  unfold build. fold t. fold m. rewrite Ebs. cbn [bind].
  pose proof (sum_lengths _ _ Ebs) as Hsum.
  pose proof (fill_all_spec t 0 m [] [] (repeat 0 (length bs + 1)) (repeat 0 (length bs + 1))
                (firstn (length t) m) eq_refl) as HF.
  cbn [app length] in HF. rewrite HF; clear HF.
  2:{ intros j Hj. simpl. destruct (nth_error m j) eqn:E; [|apply nth_error_None in E; lia].
      exists n. split; auto. now rewrite nth_error_firstn'. }
  2:{ rewrite firstn_length. lia. }
  2:{ rewrite repeat_length. lia. }
  2:{ rewrite repeat_length. lia. }
  cbn [bind].
  rewrite Hsum.
  assert (Hskr : skipn (length bs) (repeat 0 (length bs + 1)) = [0]).
  { rewrite repeat_app. simpl. rewrite skipn_app, skipn_all2 by (rewrite repeat_length; lia).
    rewrite repeat_length, Nat.sub_diag. reflexivity. }
  rewrite Hskr.
  set (bi := expand (seq 0 (length t)) t). set (off := expand (firstn (length t) m) t).
  assert (Hbi : length bi = length bs) by (apply expand_length; auto; apply seq_length).
  assert (Hoff : length off = length bs)
    by (apply expand_length; auto; rewrite firstn_length; lia).
  cbv zeta.
  replace (set_nth (bi ++ [0]) (length bs) (length t)) with (Ok (bi ++ [length t]))
    by (rewrite <- Hbi; symmetry; apply set_nth_app).
  cbn [bind].
  assert (Hlast : get_last m = Ok (length t0)).
  { unfold get_last. destruct m as [|x m'] eqn:Em; [discriminate|]. rewrite <- Em in *.
    unfold get. replace (length m - 1) with (length t) by lia. now rewrite Hn. }
  rewrite Hlast. cbn [bind].
  replace (set_nth (off ++ [0]) (length bs) (length t0)) with (Ok (off ++ [length t0]))
    by (rewrite <- Hoff; symmetry; apply set_nth_app).
  cbn [bind].
  set (cats := map category t).
  assert (Hlc : length cats = length t) by apply map_length.
  assert (Hne : nonempty_cats cats).
  { apply Forall_forall. intros x Hx. apply in_map_iff in Hx as (c & <- & Hc). auto. }
  destruct (continuities_spec (length cats) 0 t cats Hs Hne Hlc ltac:(lia) ltac:(lia) (rs_zero _))
    as (conts & Ec & Hcl & Hcn).
  rewrite !skipn_O in Ec. rewrite Ec. cbn [bind].
  destruct (build_can_bow_list_spec cats Hne) as (bow & Eb & Hbl & Hbn).
  rewrite Eb. cbn [bind].
  eexists. split; [reflexivity|].
  rewrite (char_start_all _ _ _ Ebs (le_n _)) in Hcl.
  constructor; cbn [it_orig it_mod it_bytes it_offsets it_byte_indexes it_cats it_conts it_bow]; auto.
  - rewrite app_length. simpl. lia.
  - rewrite app_length. simpl. lia.
  - intros p k Hin. 
    assert (p < length bs).
    { destruct Hin as (Hk & Hp1 & Hp2). pose proof (char_start_mono t (S k) (length t) ltac:(lia)).
      rewrite (char_start_all _ _ _ Ebs (le_n _)) in H. lia. }
    rewrite nth_error_app1 by lia.
    unfold bi. rewrite (expand_nth t _ p k Hs (seq_length _ _) Hin).
    destruct Hin as (Hk & _). clear - Hk.
    assert (G : forall a n k, k < n -> nth_error (seq a n) k = Some (a + k)).
    { intros a n. revert a. induction n; intros a q H; [lia|]. destruct q; simpl; [f_equal; lia|].
      rewrite IHn by lia. f_equal. lia. }
    rewrite G by auto. reflexivity.
  - rewrite nth_error_app2 by lia. rewrite Hbi, Nat.sub_diag. reflexivity.
  - intros p k Hin.
    assert (p < length bs).
    { destruct Hin as (Hk & Hp1 & Hp2). pose proof (char_start_mono t (S k) (length t) ltac:(lia)).
      rewrite (char_start_all _ _ _ Ebs (le_n _)) in H. lia. }
    rewrite nth_error_app1 by lia.
    unfold off. rewrite (expand_nth t _ p k Hs) by (auto; rewrite firstn_length; lia).
    apply nth_error_firstn'. apply Hin.
  - rewrite nth_error_app2 by lia. rewrite Hoff, Nat.sub_diag. simpl. auto.
  - intros p k Hin. destruct (Hcn p k Hin ltac:(lia)) as (s & e & A & B & C & D).
    rewrite char_start_0, Nat.sub_0_r in D. eauto 8.
  - lia.
Qed.
Arguments bt_scalar {t orig m2o cats it} _.
Arguments bt_enc {t orig m2o cats it} _.
Arguments bt_mod {t orig m2o cats it} _.
Arguments bt_orig {t orig m2o cats it} _.
Arguments bt_cats {t orig m2o cats it} _.
Arguments bt_cats_len {t orig m2o cats it} _.
Arguments bt_nonempty {t orig m2o cats it} _.
Arguments bt_bi_len {t orig m2o cats it} _.
Arguments bt_off_len {t orig m2o cats it} _.
Arguments bt_bi {t orig m2o cats it} _.
Arguments bt_bi_end {t orig m2o cats it} _.
Arguments bt_off {t orig m2o cats it} _.
Arguments bt_off_end {t orig m2o cats it} _.
Arguments bt_conts_len {t orig m2o cats it} _.
Arguments bt_conts {t orig m2o cats it} _.
Arguments bt_bow_len {t orig m2o cats it} _.
Arguments bt_bow {t orig m2o cats it} _.

(** * Run starts form a chain *)
Section chain.
Context {C : Type} (cats : list (list C)).

Lemma is_run_unique s e1 e2 : is_run cats s e1 -> is_run cats s e2 -> e1 = e2.
Proof.
  assert (G : forall e1 e2, is_run cats s e1 -> is_run cats s e2 -> e1 <= e2).
  { intros a b ((R1 & R1') & (c1 & S1) & _) ((R2 & R2') & _ & M2).
    destruct (le_lt_dec a b); auto. exfalso.
    destruct M2 as [M2|M2]; [lia|]. apply (M2 c1). intros q Hq. apply S1. lia. }
  intros H1 H2. apply Nat.le_antisymm; auto.
Qed.

Inductive chain : nat -> nat -> Prop :=
| ch_zero : chain 0 0
| ch_next n s e : chain n s -> is_run cats s e -> chain (S n) e.

Lemma run_start_chain s : run_start cats s -> exists n, chain n s.
Proof.
  induction 1 as [|s e Hs (n & Hn) He].
  - exists 0. constructor.
  - exists (S n). econstructor; eauto.
Qed.

Lemma chain_functional n x y : chain n x -> chain n y -> x = y.
Proof.
  revert x y. induction n; intros x y Hx Hy; inversion Hx; inversion Hy; subst; auto.
  rewrite (IHn s s0) in * by auto. eapply is_run_unique; eauto.
Qed.

Lemma chain_order n m x e y : n < m -> chain n x -> is_run cats x e -> chain m y -> e <= y.
Proof.
  intros H Hx He. revert y. induction H; intros y Hy.
  - inversion Hy; subst. rewrite (chain_functional n x s) in He by auto.
    rewrite (is_run_unique s e y); auto.
  - inversion Hy; subst. specialize (IHle s H1). destruct H2 as (R & _). lia.
Qed.

Lemma run_start_in_run s e i :
  run_start cats s -> is_run cats s e -> run_start cats i -> s <= i < e -> i = s.
Proof.
  intros Hs He Hi Hse.
  destruct (run_start_chain s Hs) as (n & Hn).
  destruct (run_start_chain i Hi) as (m & Hm).
  destruct (lt_eq_lt_dec n m) as [[H|H]|H].
  - pose proof (chain_order n m s e i H Hn He Hm). lia.
  - subst. eapply chain_functional; eauto.
  - (* i strictly before s *)
    assert (G : forall a b x y, chain a x -> chain b y -> a < b -> x < y).
    { clear. intros a b x y Ha Hb Hlt. revert y Hb. induction Hlt; intros y Hb.
      - inversion Hb; subst. rewrite (chain_functional a x s) by auto. destruct H1 as (R & _). lia.
      - inversion Hb; subst. specialize (IHHlt s H0). destruct H1 as (R & _). lia. }
    pose proof (G m n i s Hm Hn H). lia.
Qed.
End chain.
