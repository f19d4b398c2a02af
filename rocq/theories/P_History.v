(** Two lattices that agree on the end lists 0..n give the same analysis. *)
From Coq Require Import List ZArith Lia Bool Arith.
From Verif Require Import Base Utf8 M_Builder M_InputText M_Lattice M_Oov M_Tokenizer S_Text S_Lattice
  P_Builder P_InputText P_Accessors P_Oov P_Lattice P_Tokenizer P_Path P_Config.
Import ListNotations.
Open Scope nat_scope.

(** The same nodes ending at 0..n (what lies beyond is the capacity). *)
Definition same_upto (n : nat) (l1 l2 : lattice) : Prop :=
  l_eos l1 = l_eos l2 /\ l_size l1 = l_size l2 /\
  n < length (l_lists l1) /\ n < length (l_lists l2) /\
  (forall nd, l_eos l1 = Some nd -> w_begin (ln_word nd) <= n) /\
  forall e, e <= n -> nth_error (l_lists l1) e = nth_error (l_lists l2) e.

Section sim.
Variable view : Z -> Z -> option Z.
Notation conn := (cost_of view).
Variable bosp eosp : Z * Z * Z.
Variable bow : nat -> res bool.
Variable cands : nat -> gen wnode.
Variable n : nat.
Hypothesis cands_ok : forall w, cand_word bow cands n w -> w_begin w < w_end w <= n.
Hypothesis cands_begin : forall i w, In w (fst (cands i)) -> w_begin w = i.

Lemma same_get l1 l2 e : same_upto n l1 l2 -> e <= n -> get (l_lists l1) e = get (l_lists l2) e.
Proof. intros (_ & _ & _ & _ & _ & H) He. unfold get. now rewrite H. Qed.

Lemma same_connect l1 l2 w : same_upto n l1 l2 -> w_begin w <= n ->
  connect_node view (l_lists l1) w = connect_node view (l_lists l2) w.
Proof. intros H Hw. unfold connect_node. now rewrite (same_get _ _ _ H Hw). Qed.

Lemma same_insert l1 l2 w : same_upto n l1 l2 -> w_begin w <= n -> w_end w <= n ->
  exists l1' l2', lat_insert view l1 w = Ok l1' /\ lat_insert view l2 w = Ok l2' /\ same_upto n l1' l2'.
Proof.
  intros H Hb He. unfold lat_insert. rewrite <- (same_get _ _ _ H He), <- (same_connect _ _ _ H Hb).
  pose proof H as (H1 & H2 & H3 & H4 & H6 & H5).
  destruct (get_lt (l_lists l1) (w_end w)) as (ls & Els); [lia|]. rewrite Els. cbn [bind].
  destruct (connect_node_total view (l_lists l1) w) as (tot & prev & EN); [lia|]. rewrite EN. cbn [bind]. set (nd := LN _ _ _ _).
  destruct (set_nth_total (l_lists l1) (w_end w) (ls ++ [nd])) as (a & Ea & La & Na); [lia|].
  destruct (set_nth_total (l_lists l2) (w_end w) (ls ++ [nd])) as (b & Eb & Lb & Nb); [lia|].
  rewrite Ea, Eb. cbn [bind]. eexists _, _. split; [reflexivity|]. split; [reflexivity|].
  unfold same_upto. cbn [l_eos l_size l_lists]. split; auto. split; auto. split; [lia|]. split; [lia|]. split; auto.
  intros e Hle. rewrite Na, Nb. destruct (e =? w_end w); auto.
Qed.

Lemma same_insert_all ws : forall l1 l2, same_upto n l1 l2 -> (forall w, In w ws -> w_begin w <= n /\ w_end w <= n) ->
  exists l1' l2', insert_all view l1 ws = (l1', None) /\ insert_all view l2 ws = (l2', None) /\ same_upto n l1' l2'.
Proof.
  induction ws as [|w ws IH]; intros l1 l2 H Hw; cbn [insert_all]; [eauto|].
  destruct (Hw w (or_introl eq_refl)) as (Hb & He).
  destruct (same_insert l1 l2 w H Hb He) as (a & b & -> & -> & Hs).
  apply IH; auto. intros x Hx. apply Hw. now right.
Qed.

Lemma same_build_from k : forall i l1 l2, i + k <= n -> same_upto n l1 l2 ->
  exists l1' l2' x, build_from view bow cands l1 i k = (l1', x) /\ build_from view bow cands l2 i k = (l2', x) /\
    same_upto n l1' l2'.
Proof.
  induction k as [|k IH]; intros i l1 l2 Hik H; cbn [build_from]; [eauto 6|].
  assert (Hstep : exists a b x, build_at view bow cands l1 i = (a, x) /\ build_at view bow cands l2 i = (b, x) /\ same_upto n a b).
  { unfold build_at. destruct (bow i) as [[|]|] eqn:Eb; [|eauto 6|eauto 6].
    unfold has_previous_node. rewrite <- (same_get _ _ _ H) by lia.
    destruct (get (l_lists l1) i) as [ls|]; cbn [bind]; [|eauto 6].
    destruct ls; [eauto 6|]. destruct (cands i) as [ws e] eqn:Ec.
    destruct (same_insert_all ws l1 l2 H) as (a & b & -> & -> & Hs); [|eauto 6].
    intros w Hw. assert (Hb : w_begin w = i) by (apply cands_begin; now rewrite Ec).
    assert (Hc : cand_word bow cands n w) by (split; [lia|]; rewrite Hb; split; auto; now rewrite Ec).
    apply cands_ok in Hc. lia. }
  destruct Hstep as (a & b & x & -> & -> & Hs). destruct x; [eauto 6|]. apply IH; auto. lia.
Qed.

Lemma same_build l1 l2 : clean bosp l1 -> clean bosp l2 ->
  exists l1' l2' x, build_lattice view eosp bow cands l1 n = (l1', x) /\ build_lattice view eosp bow cands l2 n = (l2', x) /\
    same_upto n l1' l2'.
Proof.
  intros H1 H2. unfold build_lattice.
  assert (H : same_upto n (lat_resize eosp l1 n) (lat_resize eosp l2 n)).
  { assert (Hshape : forall l, clean bosp l -> exists k, n <= k /\ l_lists (lat_resize eosp l n) = [bos_node bosp] :: repeat [] k).
    { intros l (Hs & k & Hl & Hk). unfold lat_resize. destruct (Nat.ltb_spec (l_cap l) n); cbn [lat_expand l_lists]; rewrite Hl.
      - exists (k + (n - l_size l)). split; [lia|]. cbn [app]. now rewrite repeat_app.
      - exists k. split; [lia|auto]. }
    destruct (Hshape l1 H1) as (k1 & Hk1 & E1). destruct (Hshape l2 H2) as (k2 & Hk2 & E2).
    unfold same_upto. rewrite E1, E2. cbn [length]. rewrite !repeat_length.
    split; [reflexivity|]. split; [reflexivity|]. split; [lia|]. split; [lia|].
    split; [cbn [lat_resize l_eos]; intros nd [= <-]; cbn [ln_word]; unfold eos_word; destruct eosp as [[? ?] ?]; cbn; lia|].
    intros [|e] He; [reflexivity|]. cbn [nth_error]. rewrite !nth_error_repeat_lt by lia. reflexivity. }
  destruct (same_build_from n 0 _ _ (le_n n) H) as (a & b & x & -> & -> & Hs).
  destruct x; [eauto 6|]. unfold connect_eos.
  pose proof Hs as (He & Hz & Ha & Hb & Hw & Hn). rewrite <- He.
  destruct (l_eos a) as [nd|] eqn:Ee; [|eauto 6].
  rewrite (same_connect a b _ Hs (Hw nd eq_refl)).
  assert (Hnd : forall nd', connect_node view (l_lists b) (ln_word nd) = Ok nd' -> ln_word nd' = ln_word nd).
  { intros nd' E. now destruct (connect_node_cases _ _ _ _ E) as (ls & _ & EW & _). }
  destruct (connect_node view (l_lists b) (ln_word nd)) as [nd'|]; cbn [bind]; [|eauto 6].
  eexists _, _, None. split; [reflexivity|]. split; [reflexivity|].
  split; [reflexivity|]. split; auto. split; auto. split; auto. split; auto.
  cbn [l_eos]. intros x [= <-]. rewrite (Hnd nd' eq_refl). auto.
Qed.
End sim.

(** What is asked of a path rewriting plugin, for lattices whose words are listed
    where they end: it looks at the lattice only at positions of the text. *)
Definition local_rewrite (plugin : input_text -> list wnode -> lattice -> res (list wnode)) : Prop :=
  forall it p l1 l2, lists_end (length (it_bytes it)) l1 -> same_upto (length (it_bytes it)) l1 l2 ->
    tiles 0 (map to_step p) (length (it_bytes it)) -> plugin it p l1 = plugin it p l2.
(** It keeps a tiling a tiling. *)
Definition tiling_rewrite (plugin : input_text -> list wnode -> lattice -> res (list wnode)) : Prop :=
  forall it p lat p', lists_end (length (it_bytes it)) lat ->
    tiles 0 (map to_step p) (length (it_bytes it)) -> plugin it p lat = Ok p' ->
    tiles 0 (map to_step p') (length (it_bytes it)).

Lemma same_rewrites it plugins l1 l2 : lists_end (length (it_bytes it)) l1 -> lists_end (length (it_bytes it)) l2 ->
  same_upto (length (it_bytes it)) l1 l2 ->
  (forall q, In q plugins -> local_rewrite q /\ tiling_rewrite q) ->
  forall p, tiles 0 (map to_step p) (length (it_bytes it)) ->
  foldM (fun p plugin => plugin it p l1) p plugins = foldM (fun p plugin => plugin it p l2) p plugins.
Proof.
  intros L1 L2 Hs. induction plugins as [|q plugins IH]; intros H p Hp; cbn [foldM]; auto.
  destruct (H q (or_introl eq_refl)) as (HL & HT). rewrite (HL it p l1 l2 L1 Hs Hp).
  destruct (q it p l2) as [p'|] eqn:Eq; cbn [bind]; auto.
  apply IH; [intros; apply H; now right|]. eapply HT; eauto.
Qed.

Lemma run_same cfg l1 l2 t m : sane cfg -> (forall q, In q (cf_rewrites cfg) -> local_rewrite q /\ tiling_rewrite q) ->
  clean bos_parameter l1 -> clean bos_parameter l2 ->
  snd (run cfg l1 t m) = snd (run cfg l2 t m).
Proof.
  intros S HR C1 C2. unfold run, tokenize. destruct t as [|c t0]; [reflexivity|].
  set (t := c :: t0) in *. change (prepare _ _ t) with (run_prepare cfg t).
  destruct (run_prepare cfg t) as [it|] eqn:Ep; [|reflexivity].
  destruct (run_prepare_built cfg t it S) as (bd & Hwf & Eb & B); [discriminate|exact Ep|].
  change (analyse _ _ _ _ _ l1 it) with (run_analyse cfg l1 it).
  change (analyse _ _ _ _ _ l2 it) with (run_analyse cfg l2 it).
  destruct (run_analyse cfg l1 it) as [a ra] eqn:Ea. destruct (run_analyse cfg l2 it) as [b rb] eqn:Eb'.
  pose proof (analyse_shape S B _ _ _ C1 Ea) as (Sa & Za). pose proof (analyse_shape S B _ _ _ C2 Eb') as (Sb & Zb).
  pose proof (fun p => analyse_path S B l1 a p C1) as HPa.
  destruct (analyse_lists S B _ _ _ C1 Ea) as (La & _). destruct (analyse_lists S B _ _ _ C2 Eb') as (Lb & _).
  assert (H : ra = rb /\ same_upto (length (it_bytes it)) a b).
  { unfold run_analyse, analyse in Ea, Eb'.
    destruct (same_build (cf_view cfg) bos_parameter eos_parameter (can_bow it) (run_candidates cfg it) (length (it_bytes it))
      (considered_range S B) (fun i w => candidates_begin _ _ _ it i w) l1 l2 C1 C2) as (a' & b' & x & E1 & E2 & Hs).
    unfold run_candidates in E1, E2. rewrite E1 in Ea. rewrite E2 in Eb'.
    destruct x; injection Ea as <- <-; injection Eb' as <- <-; split; auto.
    destruct Hs as (He & _). unfold get_best_path. now rewrite He. }
  destruct H as (<- & Hs). destruct ra as [p|]; [|reflexivity].
  destruct (HPa p Ea) as (Ht & _ & _).
  rewrite (same_rewrites it (cf_rewrites cfg) a b La Lb Hs HR p Ht).
  destruct (foldM _ p (cf_rewrites cfg)) as [p1|]; [|reflexivity].
  destruct (clear_clean bos_parameter _ a Sa Za) as (a2 & -> & _).
  destruct (clear_clean bos_parameter _ b Sb Zb) as (b2 & -> & _).
  destruct (split_path _ m p1); reflexivity.
Qed.
