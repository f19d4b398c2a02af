(** Property C94: connection costs that are set, and pairs that are inhibited. *)
From Coq Require Import String Ascii List ZArith Lia Bool Arith.
From Verif Require Import Base Utf8 M_Builder M_CharCategory M_InputText M_InputPlugins M_Lattice M_Oov M_Tokenizer M_PathRewrite M_Morphemes M_Shipped M_DicReader M_LexiconSet M_Front M_Resource M_Setup
  S_Text S_Lattice P_Builder P_InputText P_Lattice P_Tokenizer P_Path P_Config P_LexiconSet P_DicToy Prop_Source Prop_Lexicon P_System Prop_System Prop_Tokenizer Prop_Shipped Prop_Lattice.
Import ListNotations.
Open Scope list_scope.
Open Scope Z_scope.

(** Two indices of the same row or column of [n]: a negative index counts from the end. *)
Definition same_index (n i j : Z) : Prop := i = j \/ i = j + n \/ j = i + n.
(** Two pairs of ids that name the same cell.  The matrix has a row for each left id of a word
    and a column for each right id of the word before. *)
Definition same_pair (g : grammar) (l r l' r' : Z) : Prop := same_index (g_rsize g) l l' /\ same_index (g_lsize g) r r'.
(** All cells of the matrix are there. *)
Definition whole (g : grammar) : Prop := 0 < g_lsize g /\ 0 < g_rsize g /\ length (g_matrix g) = (Z.to_nat (g_lsize g) * Z.to_nat (g_rsize g))%nat.

Lemma view_index_some n i k : view_index n i = Some k -> 0 <= (if i <? 0 then i + n else i) < n /\ k = Z.to_nat (if i <? 0 then i + n else i).
Proof. unfold view_index. cbv zeta. destruct (_ && _) eqn:E; [|discriminate]. apply andb_prop in E as (E1 & E2). apply Z.leb_le in E1. apply Z.ltb_lt in E2. intros [= <-]. auto. Qed.
Lemma view_index_same n i j k k' : view_index n i = Some k -> view_index n j = Some k' -> (k = k' <-> same_index n i j).
Proof.
  intros A B. apply view_index_some in A as (A1 & ->). apply view_index_some in B as (B1 & ->). unfold same_index.
  destruct (Z.ltb_spec i 0), (Z.ltb_spec j 0); split; intros; lia.
Qed.
Lemma cell_inj (n a b i j : nat) : (b < n)%nat -> (j < n)%nat -> (a * n + b = i * n + j)%nat -> a = i /\ b = j.
Proof.
  intros Hb Hj E. assert (a = i).
  { destruct (Nat.lt_trichotomy a i) as [H|[H|H]]; [|exact H|]; exfalso.
    - assert ((a + 1) * n <= i * n)%nat by (apply Nat.mul_le_mono_r; lia). lia.
    - assert ((i + 1) * n <= a * n)%nat by (apply Nat.mul_le_mono_r; lia). lia. }
  subst. lia.
Qed.

(** ** C94 *)
(** After a cost was set for a pair, that is its cost; the cost of every other pair, and all
    parts of speech, are as before. *)
Theorem C94_set g l r v g' : set_connect_cost g l r v = Ok g' ->
  get_connect_cost g' l r = Ok v /\
  (forall l' r', same_pair g l r l' r' -> get_connect_cost g l' r' <> Err EIndex -> get_connect_cost g' l' r' = Ok v) /\
  (forall l' r', ~ same_pair g l r l' r' -> get_connect_cost g' l' r' = get_connect_cost g l' r') /\
  g_pos g' = g_pos g /\ g_lsize g' = g_lsize g /\ g_rsize g' = g_rsize g /\ length (g_matrix g') = length (g_matrix g).
Proof.
  intros H. unfold set_connect_cost in H. destruct (g_lsize g * g_rsize g =? 0) eqn:Z0; [discriminate|].
  destruct (view_index (g_lsize g) r) as [i|] eqn:Ei; [|discriminate]. destruct (view_index (g_rsize g) l) as [j|] eqn:Ej; [|discriminate].
  destruct (_ && _); [|discriminate]. apply bind_ok in H as (m & Hm & H). injection H as <-. destruct (set_nth_same _ _ _ _ Hm) as (S1 & S2).
  unfold get_connect_cost, same_pair. cbn [g_pos g_lsize g_rsize g_matrix]. rewrite Z0, Ei, Ej. split; [exact S1|]. split; [|split; [|auto]].
  - intros l' r' (Sl & Sr) N. destruct (view_index (g_lsize g) r') as [i'|] eqn:Ei'; [|congruence]. destruct (view_index (g_rsize g) l') as [j'|] eqn:Ej'; [|congruence].
    apply (view_index_same _ _ _ _ _ Ei Ei') in Sr. apply (view_index_same _ _ _ _ _ Ej Ej') in Sl. subst i' j'. exact S1.
  - intros l' r' N. destruct (view_index (g_lsize g) r') as [i'|] eqn:Ei'; [|reflexivity]. destruct (view_index (g_rsize g) l') as [j'|] eqn:Ej'; [|reflexivity].
    eapply set_nth_other; [exact Hm|]. intros X. apply N. apply view_index_some in Ej as Ej1. apply view_index_some in Ej' as Ej2.
    apply cell_inj in X; [|lia|lia]. destruct X as (X1 & X2).
    split; [apply (view_index_same _ _ _ _ _ Ej Ej'); auto|apply (view_index_same _ _ _ _ _ Ei Ei'); auto].
Qed.
(** It can be set for every pair of ids of a whole matrix to every value of 16 bits. *)
Theorem C94_can_set g l r v : whole g -> 0 <= l < g_rsize g -> 0 <= r < g_lsize g -> -32768 <= v <= 32767 -> exists g', set_connect_cost g l r v = Ok g'.
Proof.
  intros (W1 & W2 & W3) Hl Hr Hv. unfold set_connect_cost. replace (g_lsize g * g_rsize g =? 0) with false by (symmetry; apply Z.eqb_neq; nia).
  unfold view_index. replace (r <? 0) with false by (symmetry; apply Z.ltb_ge; lia). replace (l <? 0) with false by (symmetry; apply Z.ltb_ge; lia).
  replace (0 <=? r) with true by (symmetry; apply Z.leb_le; lia). replace (0 <=? l) with true by (symmetry; apply Z.leb_le; lia).
  replace (r <? g_lsize g) with true by (symmetry; apply Z.ltb_lt; lia). replace (l <? g_rsize g) with true by (symmetry; apply Z.ltb_lt; lia).
  replace (-32768 <=? v) with true by (symmetry; apply Z.leb_le; lia). replace (v <=? 32767) with true by (symmetry; apply Z.leb_le; lia). cbn [andb].
  assert (T : forall (ms : list Z) k, (k < length ms)%nat -> exists m, set_nth ms k v = Ok m).
  { induction ms as [|x ms IH]; intros k Hk; [cbn in Hk; lia|]. destruct k as [|k]; cbn [set_nth]; [eauto|]. destruct (IH k) as (m & ->); [cbn in Hk; lia|]. cbn [bind]. eauto. }
  destruct (T (g_matrix g) (Z.to_nat r * Z.to_nat (g_rsize g) + Z.to_nat l)%nat) as (m & ->); [|cbn [bind]; eauto].
  rewrite W3. apply Nat.lt_le_trans with ((Z.to_nat r + 1) * Z.to_nat (g_rsize g))%nat; [lia|]. apply Nat.mul_le_mono_r. lia.
Qed.

(** Pairs that name the same cell have the same cost: a negative id counts from the end. *)
Theorem C94_from_end g l r : 0 <= l < g_rsize g -> 0 <= r < g_lsize g ->
  get_connect_cost g (l - g_rsize g) r = get_connect_cost g l r /\ get_connect_cost g l (r - g_lsize g) = get_connect_cost g l r.
Proof.
  assert (V : forall n i, 0 <= i < n -> view_index n (i - n) = view_index n i).
  { intros n i H. unfold view_index. destruct (Z.ltb_spec (i - n) 0); [|lia]. destruct (Z.ltb_spec i 0); [lia|]. now replace (i - n + n) with i by lia. }
  intros Hl Hr. unfold get_connect_cost. now rewrite (V _ _ Hl), (V _ _ Hr).
Qed.
(** The costs of a pair outside are an error, and so is setting it. *)
Theorem C94_outside g l r : 0 < g_lsize g -> 0 < g_rsize g -> ~ (- g_rsize g <= l < g_rsize g /\ - g_lsize g <= r < g_lsize g) ->
  get_connect_cost g l r = Err EIndex /\ forall v, set_connect_cost g l r v = Err EIndex.
Proof.
  intros H1 H2 N. unfold get_connect_cost, set_connect_cost. replace (g_lsize g * g_rsize g =? 0) with false by (symmetry; apply Z.eqb_neq; nia).
  destruct (view_index (g_lsize g) r) as [i|] eqn:E1; [|auto]. destruct (view_index (g_rsize g) l) as [j|] eqn:E2; [|auto].
  exfalso. apply N. apply view_index_some in E1 as (E1 & _). apply view_index_some in E2 as (E2 & _). destruct (Z.ltb_spec l 0), (Z.ltb_spec r 0); lia.
Qed.

(** A pair that is listed to be inhibited; entries of the list with fewer than two ids count
    for nothing, and further ids in an entry neither. *)
Definition listed (g : grammar) (pairs : list (list Z)) (l r : Z) : Prop := exists x y rest, In (x :: y :: rest) pairs /\ same_pair g x y l r.

Lemma same_cells g g' l r : g_lsize g' = g_lsize g -> g_rsize g' = g_rsize g -> length (g_matrix g') = length (g_matrix g) ->
  get_connect_cost g l r <> Err EIndex -> get_connect_cost g' l r <> Err EIndex.
Proof.
  intros E1 E2 E3 N X. apply N. unfold get_connect_cost in *. rewrite E1, E2 in X. destruct (_ =? 0); [exact X|].
  destruct (view_index (g_lsize g) r); [|reflexivity]. destruct (view_index (g_rsize g) l); [|reflexivity].
  unfold get in *. destruct (nth_error (g_matrix g') _) eqn:E; [discriminate X|]. apply nth_error_None in E. rewrite E3 in E. apply nth_error_None in E. now rewrite E.
Qed.

(** After the plugin has edited the grammar the listed pairs have the inhibited cost and all
    others the cost that they had. *)
Theorem C94_inhibit pairs : forall g g', inhibit g pairs = Ok g' ->
  (forall l r, listed g pairs l r -> get_connect_cost g l r <> Err EIndex -> get_connect_cost g' l r = Ok 0x7fff) /\
  (forall l r, ~ listed g pairs l r -> get_connect_cost g' l r = get_connect_cost g l r) /\
  g_pos g' = g_pos g /\ g_lsize g' = g_lsize g /\ g_rsize g' = g_rsize g /\ length (g_matrix g') = length (g_matrix g).
Proof.
  induction pairs as [|pair pairs IH]; intros g g' H; unfold inhibit in *; cbn [foldM] in H.
  - injection H as <-. split; [intros l r (x & y & rest & [] & _)|]. auto.
  - apply bind_ok in H as (g1 & H1 & H). destruct (IH _ _ H) as (A1 & A2 & A3 & A4 & A5 & A6). destruct pair as [|x [|y rest]]; cbn [edit_pair] in H1; try (injection H1 as <-;
      split; [intros l r (x' & y' & rest' & [[=]|Hin] & P) N; apply A1; [exists x', y', rest'; auto|exact N]|]; split; [|auto]; intros l r N; apply A2; intros (x' & y' & rest' & Hin & P); apply N; exists x', y', rest'; split; [now right|exact P]).
    destruct (C94_set _ _ _ _ _ H1) as (_ & B1 & B2 & B3 & B4 & B5 & B6).
    assert (LQ : forall l r, listed g1 pairs l r <-> listed g pairs l r) by (intros l r; unfold listed, same_pair; rewrite B4, B5; tauto).
    assert (DEC : forall l r, listed g1 pairs l r \/ ~ listed g1 pairs l r).
    { intros l r. unfold listed. clear. induction pairs as [|p ps IH]; [right; intros (x & y & rest & [] & _)|].
      destruct IH as [(x & y & rest & Hin & P)|N]; [left; exists x, y, rest; split; [now right|exact P]|].
      assert (D : forall n i j, same_index n i j \/ ~ same_index n i j) by (intros; unfold same_index; lia).
      destruct p as [|x [|y rest]]; try (right; intros (x' & y' & rest' & [[=]|Hin] & P); apply N; exists x', y', rest'; auto; fail).
      destruct (D (g_rsize g1) x l) as [P1|P1], (D (g_lsize g1) y r) as [P2|P2]; try (left; exists x, y, rest; split; [now left|split; assumption]; fail);
        (right; intros (x' & y' & rest' & [[= <- <- <-]|Hin] & Q1 & Q2); [contradiction|apply N; exists x', y', rest'; split; [exact Hin|split; assumption]]). }
    split; [|split; [|rewrite A3, A4, A5, A6; auto]].
    + intros l r L N. destruct (DEC l r) as [D|D]; [apply A1; [exact D|eapply same_cells; eauto]|]. rewrite A2 by exact D.
      destruct L as (x' & y' & rest' & [[= <- <- <-]|Hin] & P); [apply B1; auto|]. exfalso. apply D, LQ. exists x', y', rest'. auto.
    + intros l r N. rewrite A2 by (intros X; apply N; apply LQ in X as (x' & y' & rest' & Hin & P); exists x', y', rest'; split; [now right|exact P]).
      apply B2. intros P. apply N. exists x, y, rest. split; [now left|exact P].
Qed.

(** The pairs of a right id and the left id after it in an analysis.  The beginning and the end
    have the ids 0. *)
Definition connections (p : list wnode) : list (Z * Z) := combine (0 :: map w_right p) (map w_left p ++ [0]).
Lemma connections_allowed view p : forall right, allowed (cost_of view) INHIBITED right (map to_step p) 0 -> has_cells view right (map to_step p) 0 ->
  forall l r, In (l, r) (combine (right :: map w_right p) (map w_left p ++ [0])) -> exists c, view r l = Some c /\ c <> INHIBITED.
Proof.
  assert (V : forall a b, cost_of view a b <> INHIBITED -> view a b <> None -> exists c, view a b = Some c /\ c <> INHIBITED).
  { intros a b. unfold cost_of. destruct (view a b) as [c|]; [eauto|congruence]. }
  induction p as [|w p IH]; intros right A H l r I.
  - cbn in *. destruct I as [[= <- <-]|[]]. auto.
  - cbn [map allowed has_cells] in A, H. destruct A as (A1 & A2), H as (H1 & H2). cbn [map combine app] in I. destruct I as [[= <- <-]|I]; [apply V; assumption|].
    eapply IH; eauto.
Qed.

(** No connection of the words that the tokenizer chooses is a listed pair: not between two words,
    nor from the beginning to the first or from the last to the end. *)
Theorem C94_avoided order lower nfkc search limit g pairs g' set table ins oovs rewriters lat t it lat' p :
  inhibit g pairs = Ok g' ->
  let s := tokenizer_settings order lower nfkc search limit g' set table ins oovs rewriters in
  good_settings s -> P_Config.usable (shipped s) lat -> t <> [] -> run_prepare (shipped s) t = Ok it ->
  run_analyse (shipped s) lat it = (lat', Ok p) ->
  forall l r, In (l, r) (connections p) -> ~ listed g pairs l r.
Proof.
  intros I s G U Ht Hp E l r L X. pose proof (shipped_sane _ G) as S.
  destruct (run_prepare_built _ t it S Ht Hp) as (bd & _ & _ & B).
  destruct (analyse_path S B lat lat' p (usable_clean _ _ S U) E) as (_ & _ & A).
  pose proof (analyse_cells S B lat lat' p (usable_clean _ _ S U) E) as H.
  destruct (connections_allowed _ _ _ A H _ _ L) as (c & V & N).
  cbn [s shipped cf_view tokenizer_settings s_view] in V. destruct (get_connect_cost g' l r) as [c'|] eqn:Ec; [|discriminate V]. injection V as ->.
  destruct (C94_inhibit _ _ _ I) as (I1 & _ & _ & I2 & I3 & I4).
  rewrite I1 in Ec; [injection Ec as <-; now apply N|exact X|].
  apply (same_cells g' g); [congruence|congruence|congruence|]. rewrite Ec. discriminate.
Qed.
(** And so of the morphemes, in mode C and without plugins that join words. *)
Corollary C94_morphemes order lower nfkc search limit g pairs g' set table ins oovs lat t lat' it p :
  inhibit g pairs = Ok g' ->
  let s := tokenizer_settings order lower nfkc search limit g' set table ins oovs [] in
  good_settings s -> P_Config.usable (shipped s) lat -> M_Tokenizer.run (shipped s) lat t ModeC = (lat', Ok (Some (it, p))) ->
  forall l r, In (l, r) (connections p) -> ~ listed g pairs l r.
Proof.
  intros I s G U E.
  destruct (run_inv _ _ _ _ _ _ E) as [(_ & [=])|(it' & lat1 & p0 & p1 & p2 & Ht & Ep & Ea & Ef & El & Es & [= <- <-])].
  cbn [s shipped cf_rewrites tokenizer_settings s_rewriters map foldM] in Ef. injection Ef as <-. injection Es as <-.
  eapply C94_avoided; eauto.
Qed.
Print Assumptions C94_set.
Print Assumptions C94_can_set.
Print Assumptions C94_from_end.
Print Assumptions C94_outside.
Print Assumptions C94_inhibit.
Print Assumptions C94_avoided.
Print Assumptions C94_morphemes.

(** ** The hypotheses are met *)
(** The dictionaries of Prop_System.  東京都 is three words, whose connections have the ids 1 and
    1; with this pair inhibited it is one.  The first entry of the list is too short, the second
    too long. *)
Definition inhibited_grammar : grammar := match inhibit (ds_grammar (md_set toy_made)) [[7]; [1; 1; 9]] with Ok g => g | Err _ => toy_grammar end.
Definition with_grammar (g : grammar) : settings :=
  tokenizer_settings (fun l => l) (fun x => [x]) (fun t => t) toy_search 10 g (ds_lexicon (md_set toy_made)) (md_table toy_made) (md_inputs toy_made) (md_providers toy_made) [].
Definition chosen (g : grammar) : res (option (list (nat * nat))) :=
  r <- snd (M_Tokenizer.run (shipped (with_grammar g)) new_lattice [26481; 20140; 37117] ModeC) ;; Ok (option_map (fun r => map (fun w => (w_begin w, w_end w)) (snd r)) r).
Example C94_nonvacuous :
  let g := ds_grammar (md_set toy_made) in
  whole g /\ inhibit g [[7]; [1; 1; 9]] = Ok inhibited_grammar /\ good_settings (with_grammar inhibited_grammar) /\
  get_connect_cost g 1 1 = Ok 7 /\ get_connect_cost inhibited_grammar 1 1 = Ok 0x7fff /\ get_connect_cost inhibited_grammar 1 0 = get_connect_cost g 1 0 /\ get_connect_cost g 1 0 = Ok 0 /\ get_connect_cost g 0 1 = Ok (-4) /\
  chosen g = Ok (Some [(0, 3); (3, 6); (6, 9)]%nat) /\ chosen inhibited_grammar = Ok (Some [(0, 9)]%nat).
Proof.
  cbv zeta. split; [vm_compute; repeat split; reflexivity|]. split; [vm_compute; reflexivity|]. split; [|repeat split; vm_compute; reflexivity].
  pose proof toy_is_made as MK. unfold toy_make in MK. destruct (settings_good _ _ _ _ _ _ _ _ _ _ _ _ _ _ _ _ _ _ _ _ _ _ _ toy_built_from MK toy_interpreter toy_plain) as [G1 G2 G3 G4 G5 G6].
  constructor; assumption.
Qed.
Print Assumptions C94_nonvacuous.
