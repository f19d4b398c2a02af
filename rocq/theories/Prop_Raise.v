(** Property C97: what dearer and inhibited connections do to the analysis of a text. *)
From Coq Require Import String Ascii List ZArith Lia Bool Arith.
From Verif Require Import Base Utf8 M_Builder M_CharCategory M_InputText M_InputPlugins M_Lattice M_Oov M_Tokenizer M_PathRewrite M_Morphemes M_Shipped M_DicReader M_LexiconSet M_Front M_Resource M_Setup
  S_Text S_Lattice P_Builder P_InputText P_Lattice P_Tokenizer P_Path P_Config P_LexiconSet P_DicToy Prop_Source Prop_Lexicon P_System Prop_System Prop_Tokenizer Prop_Shipped Prop_Lattice Prop_Inhibit P_Accessors P_Live Prop_Live.
Import ListNotations.
Open Scope list_scope.
Open Scope Z_scope.

(** ** Specification *)
(** The second matrix has the same cells, each as dear as in the first, dearer or inhibited. *)
Definition dearer (g g' : grammar) : Prop := forall l r,
  (exists x y, get_connect_cost g l r = Ok x /\ get_connect_cost g' l r = Ok y /\ y <= 0x7fff /\ (y = 0x7fff \/ (x <> 0x7fff /\ x <= y))) \/
  (exists e e', get_connect_cost g l r = Err e /\ get_connect_cost g' l r = Err e').
(** The cost of words that follow each other: those of the words and those of the connections,
    including the ones with the beginning and the end of the text. *)
Definition cell (g : grammar) (l r : Z) : Z := match get_connect_cost g l r with Ok c => c | Err _ => 0 end.
Fixpoint cells_cost (g : grammar) (cs : list (Z * Z)) : Z := match cs with [] => 0 | (l, r) :: cs => cell g l r + cells_cost g cs end.
Fixpoint words_cost (p : list wnode) : Z := match p with [] => 0 | w :: p => w_cost w + words_cost p end.
Definition path_cost (g : grammar) (p : list wnode) : Z := words_cost p + cells_cost g (connections p).

(** ** Proofs *)
Section tokenizers.
Variable order : list cat -> list cat.
Variable lower : Z -> text.
Variable nfkc : text -> text.
Variable search : bytes -> bytes -> list (Z * nat).
Variable limit : nat.
Variable set : lexset.
Variable table : list range.
Variable ins : list input_plugin.
Variable oovs : list provider.
(** Tokenizers that differ only in the matrix, without plugins that join words *)
Notation tok g := (shipped (tokenizer_settings order lower nfkc search limit g set table ins oovs [])).

Lemma conn_cell g a b : cf_conn (tok g) a b = cell g b a.
Proof. unfold cf_conn, cost_of, cell. cbn [shipped cf_view tokenizer_settings s_view]. destruct (get_connect_cost g b a); reflexivity. Qed.
Lemma cost_path g p : total_cost (tok g) p = path_cost g p.
Proof.
  unfold total_cost, path_cost, connections.
  assert (X : forall p right, cost_from (cf_conn (tok g)) right (map to_step p) 0 = words_cost p + cells_cost g (combine (right :: map w_right p) (map w_left p ++ [0]))).
  { induction p0 as [|w p0 IH]; intros right; cbn [map cost_from words_cost combine app cells_cost].
    - rewrite conn_cell. lia.
    - rewrite IH, conn_cell. cbn [to_step s_left s_right s_cost map combine app]. destruct p0; cbn [map combine app cells_cost]; lia. }
  apply X.
Qed.

Section two.
Variables g g' : grammar.
Hypothesis D : dearer g g'.
Hypothesis G : good_settings (tokenizer_settings order lower nfkc search limit g set table ins oovs []).
Hypothesis C : costs_in bits16 bits16 (tok g).
Hypothesis I : ids_inside (tok g).

Lemma good' : good_settings (tokenizer_settings order lower nfkc search limit g' set table ins oovs []).
Proof. destruct G as [G1 G2 G3 G4 G5 G6]. constructor; assumption. Qed.
Lemma costs' : costs_in bits16 bits16 (tok g').
Proof.
  destruct C as [C1 C2 C3]. constructor; [|exact C2|exact C3]. intros a b. specialize (C1 a b). rewrite conn_cell in *. unfold bits16, cell in *.
  destruct (D b a) as [(x & y & E0 & E & L & K)|(e & e' & E0 & E)]; rewrite E0, E in *; lia.
Qed.
Lemma ids' : ids_inside (tok g').
Proof.
  destruct I as (L & R & [I1 I2 I3 I4]). exists L, R. constructor; [|exact I2|exact I3|exact I4]. intros a b Ha Hb. specialize (I1 a b Ha Hb).
  cbn [shipped cf_view tokenizer_settings s_view] in *. destruct (D b a) as [(x & y & _ & -> & _)|(e & e' & E & _)]; [discriminate|now rewrite E in I1].
Qed.
(** An analysis by the dearer matrix is one by the other, and costs no more there. *)
Lemma analysis_back it q : analysis (tok g') it q -> analysis (tok g) it q /\ path_cost g q <= path_cost g' q.
Proof.
  intros (T & F & A). unfold path_cost, connections.
  assert (X : forall q right, allowed (cf_conn (tok g')) INHIBITED right (map to_step q) 0 ->
    allowed (cf_conn (tok g)) INHIBITED right (map to_step q) 0 /\ cells_cost g (combine (right :: map w_right q) (map w_left q ++ [0])) <= cells_cost g' (combine (right :: map w_right q) (map w_left q ++ [0]))).
  { assert (K : forall l r, cell g' l r <> INHIBITED -> cell g l r <> INHIBITED /\ cell g l r <= cell g' l r).
    { intros l r. unfold cell, INHIBITED. destruct (D l r) as [(x & y & -> & -> & L & K)|(e & e' & -> & ->)]; intros; [lia|split; [discriminate|lia]]. }
    induction q0 as [|w q0 IH]; intros right; cbn [map allowed combine app cells_cost]; rewrite !conn_cell.
    - intros N. destruct (K _ _ N). split; [assumption|lia].
    - intros (N & A'). destruct (K _ _ N) as (K1 & K2). destruct (IH _ A') as (J1 & J2). split; [split; assumption|]. cbn [to_step s_left] in K2. cbn [to_step s_right] in J2. cbn [map combine app] in J2 |- *. destruct q0; cbn [map combine app cells_cost] in *; lia. }
  destruct (X q 0 A) as (X1 & X2). split; [split; [exact T|split; [exact F|exact X1]]|lia].
Qed.
(** One whose connections have kept their costs is still one, with the same cost. *)
Lemma analysis_kept it q : analysis (tok g) it q -> (forall l r, In (l, r) (connections q) -> get_connect_cost g' l r = get_connect_cost g l r) ->
  analysis (tok g') it q /\ path_cost g' q = path_cost g q.
Proof.
  intros (T & F & A) K. unfold path_cost. unfold connections in *.
  assert (X : forall q right, allowed (cf_conn (tok g)) INHIBITED right (map to_step q) 0 -> (forall l r, In (l, r) (combine (right :: map w_right q) (map w_left q ++ [0])) -> get_connect_cost g' l r = get_connect_cost g l r) ->
    allowed (cf_conn (tok g')) INHIBITED right (map to_step q) 0 /\ cells_cost g' (combine (right :: map w_right q) (map w_left q ++ [0])) = cells_cost g (combine (right :: map w_right q) (map w_left q ++ [0]))).
  { clear. induction q as [|w q IH]; intros right A K.
    - cbn [map allowed combine app cells_cost] in *. rewrite !conn_cell in *. unfold cell in *. rewrite (K right 0 (or_introl eq_refl)). auto.
    - cbn [map allowed combine app] in *. destruct A as (N & A'). destruct (IH _ A') as (J1 & J2); [intros l r H; apply K; right; exact H|].
      rewrite conn_cell in *. assert (E : cell g' right (w_left w) = cell g right (w_left w)) by (unfold cell; rewrite (K right (w_left w) (or_introl eq_refl)); reflexivity).
      cbn [to_step s_left s_right] in *. split; [split; [rewrite E; exact N|exact J1]|]. cbn [cells_cost]. rewrite E. f_equal. exact J2. }
  destruct (X q 0 A K) as (X1 & X2). split; [split; [exact T|split; [exact F|exact X1]]|lia].
Qed.
End two.

(** A text that is analysed: no candidates raise, at any place that words reach. *)
Lemma no_exception g lat t it lat' p : good_settings (tokenizer_settings order lower nfkc search limit g set table ins oovs []) -> costs_in bits16 bits16 (tok g) -> ids_inside (tok g) ->
  P_Config.usable (tok g) lat -> t <> [] -> run_prepare (tok g) t = Ok it -> Z.of_nat (length (it_bytes it)) <= 32766 -> run_analyse (tok g) lat it = (lat', Ok p) ->
  forall i q, tiles 0 (map to_step q) i -> Forall (considered (cfg := tok g) (it := it)) q -> can_bow it i = Ok true -> snd (run_candidates (tok g) it i) = None.
Proof.
  intros G C I U Ht Hp Hn E i q T F Hb. pose proof (shipped_sane _ G) as S. destruct (run_prepare_built _ t it S Ht Hp) as (bd & _ & _ & B).
  destruct (bits16_sum _ it _ _ _ _ S B C) as (Mw & Mc). pose proof (usable_clean _ _ S U) as Hc. destruct (considered_inside B I) as (HI1 & HI2).
  unfold run_analyse, analyse in E. destruct (build_lattice _ _ _ _ lat _) as [lat1 [x|]] eqn:E1; [discriminate|].
  destruct (build_lattice_spec (cf_view (tok g)) bos_parameter eos_parameter (can_bow it) (run_candidates (tok g) it) (length (it_bytes it)) 65536 (considered_range S B) (fun i w => candidates_begin _ _ _ it i w) Mw Mc ltac:(lia) HI1 HI2 Mc lat lat1 Hc E1) as (_ & _ & _ & X).
  assert (L : (i < length (it_bytes it))%nat) by (apply (bow_start B) in Hb as (k & Hk & ->); rewrite <- (len_bytes B); apply char_start_lt; lia).
  apply (X i (rev q) L Hb). apply rpath_tiles; [apply (considered_range S B)|]. rewrite rev_involutive. split; [exact T|now apply Forall_rev].
Qed.

(** Whatever is analysed is the answer of tokenize. *)
Lemma run_analysed g lat t it lat1 p : good_settings (tokenizer_settings order lower nfkc search limit g set table ins oovs []) -> P_Config.usable (tok g) lat -> t <> [] ->
  run_prepare (tok g) t = Ok it -> run_analyse (tok g) lat it = (lat1, Ok p) -> exists lat2, M_Tokenizer.run (tok g) lat t ModeC = (lat2, Ok (Some (it, p))).
Proof.
  intros G U Ht Ep Ea. pose proof (shipped_sane _ G) as S. destruct (run_prepare_built _ t it S Ht Ep) as (bd & _ & _ & B).
  destruct (analyse_shape S B lat lat1 (Ok p) (usable_clean _ _ S U) Ea) as (Hsh & Hz). destruct (clear_clean bos_parameter (length (it_bytes it)) lat1 Hsh Hz) as (lat2 & Ec & _).
  exists lat2. unfold M_Tokenizer.run, tokenize. destruct t as [|c1 t0]; [congruence|].
  change (prepare _ _ _) with (run_prepare (tok g) (c1 :: t0)). rewrite Ep. change (analyse _ _ _ _ _ lat it) with (run_analyse (tok g) lat it). rewrite Ea.
  cbn [cf_rewrites shipped tokenizer_settings s_rewriters map foldM]. rewrite Ec. reflexivity.
Qed.
Lemma run_answer g lat t lat' it p : M_Tokenizer.run (tok g) lat t ModeC = (lat', Ok (Some (it, p))) ->
  t <> [] /\ run_prepare (tok g) t = Ok it /\ exists lat1, run_analyse (tok g) lat it = (lat1, Ok p).
Proof.
  intros E. destruct (run_inv _ _ _ _ _ _ E) as [(_ & [=])|(it' & lat1 & p0 & p1 & p2 & Ht & Ep & Ea & Ef & El & Es & [= <- <-])].
  cbn [shipped cf_rewrites tokenizer_settings s_rewriters map foldM] in Ef. injection Ef as <-. injection Es as <-. eauto.
Qed.

(** ** C97 *)
(** A text that is analysed with the dearer matrix is analysed with the other, at no higher
    cost. *)
Theorem C97_cheaper g g' lat lat' t lat2 it p' :
  good_settings (tokenizer_settings order lower nfkc search limit g set table ins oovs []) -> costs_in bits16 bits16 (tok g) -> ids_inside (tok g) -> dearer g g' ->
  P_Config.usable (tok g) lat -> P_Config.usable (tok g') lat' ->
  M_Tokenizer.run (tok g') lat' t ModeC = (lat2, Ok (Some (it, p'))) -> Z.of_nat (length (it_bytes it)) <= 32766 ->
  exists lat1 p, M_Tokenizer.run (tok g) lat t ModeC = (lat1, Ok (Some (it, p))) /\ path_cost g p <= path_cost g' p'.
Proof.
  intros G C I D U U' E Hn. pose proof (good' g g' G) as G'. pose proof (costs' g g' D C) as C'. pose proof (ids' g g' D I) as I'.
  pose proof (shipped_sane _ G) as S. pose proof (shipped_sane _ G') as S'. destruct (run_answer _ _ _ _ _ _ E) as (Ht & Ep & lat1' & Ea).
  destruct (C15_minimal_cost _ _ _ _ _ _ S' C' I' U' Ht Ep Hn Ea) as (A & _). destruct (analysis_back g g' D it p' A) as (A1 & L1).
  pose proof (no_exception g' lat' t it lat1' p' G' C' I' U' Ht Ep Hn Ea) as NX.
  destruct (run_analyse (tok g) lat it) as [lat1 r] eqn:Ea1.
  destruct (C16_fails_iff_no_analysis (tok g) lat t it lat1 r S C I U Ht Ep Hn NX Ea1) as (_ & HO). destruct (proj2 HO) as (p & ->); [eauto|].
  destruct (C15_minimal_cost _ _ _ _ _ _ S C I U Ht Ep Hn Ea1) as (_ & M). destruct (run_analysed g lat t it lat1 p G U Ht Ep Ea1) as (lat3 & R).
  exists lat3, p. split; [exact R|]. specialize (M p' A1). rewrite !cost_path in M. lia.
Qed.
(** And if the words that were found keep the costs of their connections, the text is still
    analysed, at the same cost. *)
Theorem C97_unused g g' lat lat' t lat2 it p :
  good_settings (tokenizer_settings order lower nfkc search limit g set table ins oovs []) -> costs_in bits16 bits16 (tok g) -> ids_inside (tok g) -> dearer g g' ->
  P_Config.usable (tok g) lat -> P_Config.usable (tok g') lat' ->
  M_Tokenizer.run (tok g) lat t ModeC = (lat2, Ok (Some (it, p))) -> Z.of_nat (length (it_bytes it)) <= 32766 ->
  (forall l r, In (l, r) (connections p) -> get_connect_cost g' l r = get_connect_cost g l r) ->
  exists lat1 p', M_Tokenizer.run (tok g') lat' t ModeC = (lat1, Ok (Some (it, p'))) /\ path_cost g' p' = path_cost g p.
Proof.
  intros G C I D U U' E Hn K. pose proof (good' g g' G) as G'. pose proof (costs' g g' D C) as C'. pose proof (ids' g g' D I) as I'.
  pose proof (shipped_sane _ G) as S. pose proof (shipped_sane _ G') as S'. destruct (run_answer _ _ _ _ _ _ E) as (Ht & Ep & lat1' & Ea).
  destruct (C15_minimal_cost _ _ _ _ _ _ S C I U Ht Ep Hn Ea) as (A & M). destruct (analysis_kept g g' it p A K) as (A1 & L1).
  pose proof (no_exception g lat t it lat1' p G C I U Ht Ep Hn Ea) as NX.
  destruct (run_analyse (tok g') lat' it) as [lat1 r] eqn:Ea1.
  destruct (C16_fails_iff_no_analysis (tok g') lat' t it lat1 r S' C' I' U' Ht Ep Hn NX Ea1) as (_ & HO). destruct (proj2 HO) as (p' & ->); [eauto|].
  destruct (C15_minimal_cost _ _ _ _ _ _ S' C' I' U' Ht Ep Hn Ea1) as (A2 & M'). destruct (run_analysed g' lat' t it lat1 p' G' U' Ht Ep Ea1) as (lat3 & R).
  exists lat3, p'. split; [exact R|]. specialize (M' p A1). destruct (analysis_back g g' D it p' A2) as (A3 & L3). specialize (M p' A3). rewrite !cost_path in *. lia.
Qed.
End tokenizers.

(** Matrices that a cost of 16 bits fits *)
Definition fits (g : grammar) : Prop := forall l r x, get_connect_cost g l r = Ok x -> x <= 0x7fff.
Lemma dearer_trans g1 g2 g3 : dearer g1 g2 -> dearer g2 g3 -> dearer g1 g3.
Proof.
  intros A B l r. destruct (A l r) as [(x & y & E1 & E2 & L & K)|(e & e' & E1 & E2)], (B l r) as [(x' & z & F1 & F2 & L' & K')|(d & d' & F1 & F2)]; try congruence.
  - rewrite E2 in F1. injection F1 as <-. left. exists x, z. repeat split; auto. lia.
  - right. eauto.
Qed.
(** Setting the cost of a pair to a larger one makes a matrix dearer, *)
Theorem C97_set g l r x v g' : fits g -> get_connect_cost g l r = Ok x -> (v = 0x7fff \/ (x <> 0x7fff /\ x <= v)) -> set_connect_cost g l r v = Ok g' -> dearer g g'.
Proof.
  intros F Hx Hv H l' r'. destruct (C94_set _ _ _ _ _ H) as (_ & A & B & _ & E1 & E2 & E3).
  assert (V : v <= 0x7fff) by (unfold set_connect_cost in H; destruct (_ =? 0); [discriminate|]; destruct (view_index _ r); [|discriminate]; destruct (view_index _ l); [|discriminate]; destruct (_ && _) eqn:X; [|discriminate]; apply andb_prop in X as (_ & X); apply Z.leb_le in X; lia).
  assert (S : same_pair g l r l' r' \/ ~ same_pair g l r l' r') by (unfold same_pair, same_index; lia).
  destruct S as [S|S].
  - destruct (get_connect_cost g l' r') as [x'|e] eqn:G'.
    + left. exists x', v. split; [reflexivity|]. split; [apply A; [exact S|rewrite G'; discriminate]|]. split; [exact V|].
      assert (x' = x); [|subst; exact Hv]. unfold get_connect_cost in Hx, G'. destruct (_ =? 0); [discriminate|].
      destruct (view_index (g_lsize g) r) eqn:I1; [|discriminate]. destruct (view_index (g_rsize g) l) eqn:I2; [|discriminate].
      destruct (view_index (g_lsize g) r') eqn:I3; [|discriminate]. destruct (view_index (g_rsize g) l') eqn:I4; [|discriminate].
      destruct S as (S1 & S2). apply (view_index_same _ _ _ _ _ I2 I4) in S1. apply (view_index_same _ _ _ _ _ I1 I3) in S2. subst. congruence.
    + right. exists e. destruct (get_connect_cost g' l' r') as [y|e'] eqn:G2; [|eauto]. exfalso.
      apply (same_cells g' g l' r'); [congruence|congruence|congruence|rewrite G2; discriminate|]. rewrite G'. f_equal.
      unfold get_connect_cost in Hx, G'. destruct (_ =? 0); [discriminate|]. destruct (view_index (g_lsize g) r'); [|congruence]. destruct (view_index (g_rsize g) l'); [|congruence].
      unfold get in G'. destruct (nth_error _ _); congruence.
  - rewrite (B _ _ S). destruct (get_connect_cost g l' r') as [x'|e] eqn:G'; [left|right; eauto]. exists x', x'. specialize (F _ _ _ G'). repeat split; auto. lia.
Qed.
(** and so does the list of pairs that InhibitConnectionPlugin gets. *)
Theorem C97_inhibit pairs : forall g g', fits g -> inhibit g pairs = Ok g' -> dearer g g'.
Proof.
  unfold inhibit. induction pairs as [|pair pairs IH]; intros g g' F H; cbn [foldM] in H.
  - injection H as <-. intros l r. destruct (get_connect_cost g l r) as [x|e] eqn:E; [left|right; eauto]. exists x, x. specialize (F _ _ _ E). repeat split; auto. lia.
  - apply bind_ok in H as (g1 & H1 & H). destruct pair as [|a [|b rest]]; cbn [edit_pair] in H1; try (injection H1 as <-; now apply IH).
    assert (D : dearer g g1).
    { destruct (get_connect_cost g a b) as [x|e] eqn:E; [eapply C97_set; eauto|]. exfalso. destruct (C94_set _ _ _ _ _ H1) as (A & _ & _ & _ & E1 & E2 & E3).
      apply (same_cells g1 g a b); [congruence|congruence|congruence|rewrite A; discriminate|]. rewrite E. f_equal.
      unfold set_connect_cost in H1. unfold get_connect_cost in E. destruct (_ =? 0); [discriminate|]. destruct (view_index (g_lsize g) b); [|congruence]. destruct (view_index (g_rsize g) a); [|congruence].
      unfold get in E. destruct (nth_error _ _); congruence. }
    eapply dearer_trans; [exact D|]. apply IH; [|exact H]. intros l r y Ey. destruct (D l r) as [(x & y' & _ & E & L & _)|(e & e' & _ & E)]; congruence.
Qed.
Print Assumptions C97_cheaper.
Print Assumptions C97_unused.
Print Assumptions C97_set.
Print Assumptions C97_inhibit.

(** ** The hypotheses are met *)
(** The dictionaries of C94: 東京都 with the connection of ids 1 and 1 inhibited, which costs more,
    and with another one made dearer that no analysis of 東京都 has. *)
Definition raised_grammar : grammar := match set_connect_cost (ds_grammar (md_set toy_made)) 0 0 20 with Ok g => g | Err _ => toy_grammar end.
Definition answer_cost (g : grammar) (t : text) : res (option Z) :=
  r <- snd (M_Tokenizer.run (shipped (with_grammar g)) new_lattice t ModeC) ;; Ok (option_map (fun r => path_cost g (snd r)) r).
Lemma without_rewriters order lower nfkc search limit m : let bare := tokenizer_settings order lower nfkc search limit (ds_grammar (md_set m)) (ds_lexicon (md_set m)) (md_table m) (md_inputs m) (md_providers m) [] in
  (good_settings (md_settings order lower nfkc search limit m) -> good_settings bare) /\ (costs_in bits16 bits16 (created order lower nfkc search limit m) -> costs_in bits16 bits16 (shipped bare)) /\
  (ids_inside (created order lower nfkc search limit m) -> ids_inside (shipped bare)) /\ (costs_in bits16 bits16 (created order lower nfkc search limit m) -> fits (ds_grammar (md_set m))).
Proof.
  cbv zeta. repeat apply conj.
  - intros [G1 G2 G3 G4 G5 G6]. constructor; assumption.
  - intros [C1 C2 C3]. constructor; assumption.
  - intros (L & R & [I1 I2 I3 I4]). exists L, R. constructor; assumption.
  - intros C l r x E. pose proof (ci_conn _ _ _ C r l) as B. unfold bits16, cf_conn, cost_of in B. cbn [created md_settings shipped cf_view tokenizer_settings s_view] in B. rewrite E in B. lia.
Qed.
Example C97_nonvacuous :
  let g := ds_grammar (md_set toy_made) in
  good_settings (with_grammar g) /\ costs_in bits16 bits16 (shipped (with_grammar g)) /\ ids_inside (shipped (with_grammar g)) /\ fits g /\
  dearer g inhibited_grammar /\ dearer g raised_grammar /\
  chosen inhibited_grammar = Ok (Some [(0, 9)]%nat) /\ answer_cost g [26481; 20140; 37117] = Ok (Some 9) /\ answer_cost inhibited_grammar [26481; 20140; 37117] = Ok (Some 5949) /\
  get_connect_cost g 0 0 = Ok 5 /\ answer_cost raised_grammar [26481; 20140; 37117] = Ok (Some 9).
Proof.
  cbv zeta. pose proof toy_is_made as MK. unfold toy_make in MK.
  destruct (without_rewriters (fun l => l) (fun x => [x]) (fun t => t) toy_search 10 toy_made) as (WG & WC & WI & WF).
  pose proof (live_costs _ _ _ _ _ _ _ _ _ _ _ _ _ _ _ _ _ _ _ _ _ _ _ toy_built_from MK toy_files toy_furnished) as C.
  split; [exact (WG (settings_good _ _ _ _ _ _ _ _ _ _ _ _ _ _ _ _ _ _ _ _ _ _ _ toy_built_from MK toy_interpreter toy_plain))|]. split; [exact (WC C)|].
  split; [exact (WI (live_ids _ _ _ _ _ _ _ _ _ _ _ _ _ _ _ _ _ _ _ _ _ _ _ toy_built_from MK toy_furnished))|]. pose proof (WF C) as F. split; [exact F|]. clear WG WC WI WF C.
  assert (E1 : inhibit (ds_grammar (md_set toy_made)) [[7]; [1; 1; 9]] = Ok inhibited_grammar) by (vm_compute; reflexivity).
  assert (E2 : set_connect_cost (ds_grammar (md_set toy_made)) 0 0 20 = Ok raised_grammar) by (vm_compute; reflexivity).
  assert (E3 : get_connect_cost (ds_grammar (md_set toy_made)) 0 0 = Ok 5) by (vm_compute; reflexivity).
  split; [exact (C97_inhibit _ _ _ F E1)|].
  split; [apply (C97_set _ 0 0 5 20 _ F E3); [right; lia|exact E2]|].
  repeat match goal with |- _ /\ _ => split end; vm_compute; reflexivity.
Qed.
Print Assumptions C97_nonvacuous.
