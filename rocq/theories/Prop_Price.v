(** Property C98: what dearer words do to the analysis of a text. *)
From Coq Require Import String Ascii List ZArith Lia Bool Arith.
From Verif Require Import Base Utf8 M_Builder M_CharCategory M_InputText M_InputPlugins M_Lattice M_Oov M_Tokenizer M_PathRewrite M_Morphemes M_Shipped M_DicReader M_LexiconSet M_Front M_Resource M_Setup
  S_Text S_Lattice P_Builder P_InputText P_Lattice P_Tokenizer P_Path P_Config P_LexiconSet P_DicToy Prop_Source Prop_Lexicon P_System Prop_System Prop_Tokenizer Prop_Shipped Prop_Lattice Prop_Inhibit P_Accessors P_Live Prop_Live Prop_Raise.
Import ListNotations.
Open Scope list_scope.
Open Scope Z_scope.

(** ** Specification *)
(** Dictionaries with the same words, each as dear as in the first or dearer in the second *)
Definition pricier (search : bytes -> bytes -> list (Z * nat)) (set set' : lexset) : Prop :=
  (forall bs i, ls_lookup search set' bs i = ls_lookup search set bs i) /\
  forall wid, (exists l r c c', ls_params set wid = Ok (l, r, c) /\ ls_params set' wid = Ok (l, r, c') /\ c <= c' <= 32767) \/
    exists e e', ls_params set wid = Err e /\ ls_params set' wid = Err e'.
(** The words of dictionaries in [p] cost what they did. *)
Definition same_costs (set set' : lexset) (p : list wnode) : Prop := forall w, In w p -> w_oov w = false -> ls_params set' (w_id w) = ls_params set (w_id w).

(** ** Proofs *)
Lemma costs_swap s s' : s_view s' = s_view s -> s_providers s' = s_providers s -> (forall wid l r c, s_params s' wid = Ok (l, r, c) -> bits16 c) -> costs_in bits16 bits16 (shipped s) -> costs_in bits16 bits16 (shipped s').
Proof. intros E1 E2 H [C1 C2 C3]. constructor; [intros a b; specialize (C1 a b); unfold cf_conn in *; cbn [shipped cf_view] in *; now rewrite E1|exact H|cbn [shipped cf_providers] in *; now rewrite E2]. Qed.
Lemma ids_swap s s' : s_view s' = s_view s -> s_providers s' = s_providers s ->
  (forall bs i wid e l r c', In (wid, e) (fst (s_lookup s' bs i)) -> s_params s' wid = Ok (l, r, c') -> exists c, In (wid, e) (fst (s_lookup s bs i)) /\ s_params s wid = Ok (l, r, c)) -> ids_inside (shipped s) -> ids_inside (shipped s').
Proof.
  intros E1 E2 H (L & R & [I1 I2 I3 I4]). exists L, R. constructor; [cbn [shipped cf_view] in *; now rewrite E1|exact I2| |cbn [shipped cf_providers] in *; now rewrite E2].
  intros bs i wid e l r c' Hin E. destruct (H bs i wid e l r c' Hin E) as (c & A & B). exact (I3 bs i wid e l r c A B).
Qed.
Section tokenizers.
Variable order : list cat -> list cat.
Variable lower : Z -> text.
Variable nfkc : text -> text.
Variable search : bytes -> bytes -> list (Z * nat).
Variable limit : nat.
Variable g : grammar.
Variable table : list range.
Variable ins : list input_plugin.
Variable oovs : list provider.
(** Tokenizers that differ only in the dictionaries, without plugins that join words *)
Notation settings_of set := (tokenizer_settings order lower nfkc search limit g set table ins oovs []).
Notation tok set := (shipped (settings_of set)).
Variables set set' : lexset.
Hypothesis D : pricier search set set'.

Definition repriced (w w' : wnode) : Prop := w' = w \/ exists b e l r c c' id, ls_params set id = Ok (l, r, c) /\ ls_params set' id = Ok (l, r, c') /\ c <= c' <= 32767 /\
  w = WNode b e l r c id false true None /\ w' = WNode b e l r c' id false true None.

Lemma lex_repriced it i l : Forall2 repriced (fst (lex_words (ls_params set) it i l)) (fst (lex_words (ls_params set') it i l)) /\
  (snd (lex_words (ls_params set) it i l) = None <-> snd (lex_words (ls_params set') it i l) = None).
Proof.
  induction l as [|(wid, e) l IH]; cbn [lex_words]; [split; [constructor|tauto]|].
  destruct (if (e <? _)%nat then can_bow it e else Ok true) as [[|]|x]; [|exact IH|split; [constructor|split; discriminate]].
  destruct (proj2 D wid) as [(lf & rt & c & c' & E1 & E2 & L)|(x & x' & E1 & E2)].
  - rewrite E1, E2. cbn [bind]. unfold lex_node. destruct (to_int wid) as [wid'|x] eqn:T; [|split; [constructor|split; discriminate]]. cbn [bind].
    destruct (lex_words (ls_params set) it i l) as [ns y], (lex_words (ls_params set') it i l) as [ns' y']. cbn [fst snd] in *. destruct IH as (F & N). split; [|exact N].
    constructor; [|exact F]. right. assert (wid' = wid) by (unfold to_int in T; destruct (_ && _); congruence). subst wid'. unfold set_range. cbn. exists i, e, lf, rt, c, c', wid. auto.
  - rewrite E1, E2. cbn [bind]. split; [constructor|split; discriminate].
Qed.
Lemma repriced_refl ws : Forall2 repriced ws ws.
Proof. induction ws; constructor; [now left|assumption]. Qed.
Lemma candidates_repriced it i : Forall2 repriced (fst (run_candidates (tok set) it i)) (fst (run_candidates (tok set') it i)) /\
  (snd (run_candidates (tok set) it i) = None <-> snd (run_candidates (tok set') it i) = None).
Proof.
  unfold run_candidates, candidates. cbn [shipped cf_lookup cf_params cf_providers tokenizer_settings s_lookup s_params s_providers]. rewrite (proj1 D).
  destruct (ls_lookup search set (it_bytes it) i) as [found x0]. pose proof (lex_repriced it i found) as H.
  destruct (lex_words (ls_params set) it i found) as [ws x1], (lex_words (ls_params set') it i found) as [ws' x1']. cbn [fst snd] in H. destruct H as (F & N).
  destruct x1 as [x|], x1' as [x'|]; [split; [exact F|split; discriminate]|destruct N as (_ & N); discriminate (N eq_refl)|destruct N as (N & _); discriminate (N eq_refl)|].
  destruct x0; [split; [exact F|split; discriminate]|]. destruct (get_cats_at it i) as [cats|]; [|split; [exact F|split; discriminate]].
  assert (HW : match ws' with [] => false | _ => true end = match ws with [] => false | _ => true end) by (destruct F; reflexivity). rewrite HW.
  destruct (if cat_mem NOOOVBOW cats then _ else _) as [os x2]. assert (FA : Forall2 repriced (ws ++ os) (ws' ++ os)) by (apply Forall2_app; [exact F|apply repriced_refl]).
  destruct x2; [split; [exact FA|split; discriminate]|]. inversion FA as [E1 E2|w w' r r' R FR E1 E2].
  - destruct (default_oov oovs it i) as [[|d ds]|]; cbn; (split; [apply repriced_refl|tauto]).
  - split; [|split; reflexivity]. constructor; assumption.
Qed.

Lemma repriced_begin w w' : repriced w w' -> w_begin w' = w_begin w.
Proof. intros [->|(b & e & l & r & c & c' & id & _ & _ & _ & -> & ->)]; reflexivity. Qed.
Lemma in_l {A B} (R : A -> B -> Prop) l l' x : Forall2 R l l' -> In x l -> exists y, In y l' /\ R x y.
Proof. induction 1 as [|a b l l' H F IH]; [intros []|]. intros [->|I]; [exists b; split; [now left|exact H]|]. destruct (IH I) as (y & I' & R'). exists y. split; [now right|exact R']. Qed.
Lemma in_r {A B} (R : A -> B -> Prop) l l' y : Forall2 R l l' -> In y l' -> exists x, In x l /\ R x y.
Proof. induction 1 as [|a b l l' H F IH]; [intros []|]. intros [->|I]; [exists a; split; [now left|exact H]|]. destruct (IH I) as (x & I' & R'). exists x. split; [now right|exact R']. Qed.
Lemma considered_there it q : Forall (considered (cfg := tok set) (it := it)) q -> exists q', Forall2 repriced q q' /\ Forall (considered (cfg := tok set') (it := it)) q'.
Proof.
  induction 1 as [|w q (H1 & H2 & H3) F IH]; [exists []; split; constructor|]. destruct IH as (q' & R & F'). destruct (in_l _ _ _ _ (proj1 (candidates_repriced it (w_begin w))) H3) as (w' & H4 & R').
  exists (w' :: q'). split; [now constructor|]. constructor; [|exact F']. unfold considered, cand_word. rewrite (repriced_begin _ _ R'). auto.
Qed.
Lemma considered_back it q' : Forall (considered (cfg := tok set') (it := it)) q' -> exists q, Forall2 repriced q q' /\ Forall (considered (cfg := tok set) (it := it)) q.
Proof.
  induction 1 as [|w' q' (H1 & H2 & H3) F IH]; [exists []; split; constructor|]. destruct IH as (q & R & F'). destruct (in_r _ _ _ _ (proj1 (candidates_repriced it (w_begin w'))) H3) as (w & H4 & R').
  exists (w :: q). split; [now constructor|]. constructor; [|exact F']. unfold considered, cand_word. rewrite <- (repriced_begin _ _ R'). auto.
Qed.
Lemma steps_repriced q q' : Forall2 repriced q q' -> (forall b e, tiles b (map to_step q') e <-> tiles b (map to_step q) e) /\
  (forall conn right left, allowed conn INHIBITED right (map to_step q') left <-> allowed conn INHIBITED right (map to_step q) left) /\
  map w_left q' = map w_left q /\ map w_right q' = map w_right q /\ words_cost q <= words_cost q'.
Proof.
  induction 1 as [|w w' q q' R F (I1 & I2 & I3 & I4 & I5)]; [repeat split; auto; cbn; lia|].
  assert (X : w_begin w' = w_begin w /\ w_end w' = w_end w /\ w_left w' = w_left w /\ w_right w' = w_right w /\ w_cost w <= w_cost w').
  { destruct R as [->|(b & e & l & r & c & c' & id & _ & _ & L & -> & ->)]; cbn; repeat split; lia. }
  destruct X as (X1 & X2 & X3 & X4 & X5). split; [|split; [|split; [|split]]].
  - intros b e. cbn [map tiles to_step s_begin s_end]. rewrite X1, X2, I1. tauto.
  - intros conn right left. cbn [map allowed to_step s_left s_right]. rewrite X3, X4, I2. tauto.
  - cbn [map]. congruence.
  - cbn [map]. congruence.
  - cbn [words_cost]. lia.
Qed.
Lemma path_repriced q q' : Forall2 repriced q q' -> path_cost g q <= path_cost g q'.
Proof. intros F. destruct (steps_repriced _ _ F) as (_ & _ & E1 & E2 & L). unfold path_cost, connections. rewrite E1, E2. lia. Qed.
Lemma path_kept q q' : Forall2 repriced q q' -> same_costs set set' q -> q' = q.
Proof.
  induction 1 as [|w w' q q' R F IH]; intros K; [reflexivity|]. rewrite IH by (intros v I; apply K; now right). f_equal.
  destruct R as [->|(b & e & l & r & c & c' & id & E1 & E2 & L & -> & ->)]; [reflexivity|]. specialize (K _ (or_introl eq_refl) eq_refl). cbn in K. congruence.
Qed.
Lemma conn_there : cf_conn (tok set') = cf_conn (tok set).
Proof. unfold cf_conn. cbn [shipped cf_view tokenizer_settings s_view]. reflexivity. Qed.
Lemma prepare_there t : run_prepare (tok set') t = run_prepare (tok set) t.
Proof.
  unfold run_prepare. cbn [shipped cf_category cf_inputs tokenizer_settings s_category s_inputs]. reflexivity.
Qed.
Lemma there it q : analysis (tok set) it q -> exists q', Forall2 repriced q q' /\ analysis (tok set') it q'.
Proof.
  intros (T & F & A). destruct (considered_there _ _ F) as (q' & R & F'). destruct (steps_repriced _ _ R) as (E1 & E2 & _). exists q'. split; [exact R|].
  split; [now apply E1|]. split; [exact F'|]. rewrite conn_there. exact (proj2 (E2 _ 0 0) A).
Qed.
Lemma back it q' : analysis (tok set') it q' -> exists q, Forall2 repriced q q' /\ analysis (tok set) it q.
Proof.
  intros (T & F & A). destruct (considered_back _ _ F) as (q & R & F'). destruct (steps_repriced _ _ R) as (E1 & E2 & _). exists q. split; [exact R|].
  split; [now apply E1|]. split; [exact F'|]. rewrite conn_there in A. exact (proj1 (E2 _ 0 0) A).
Qed.

Hypothesis G : good_settings (settings_of set).
Hypothesis C : costs_in bits16 bits16 (tok set).
Hypothesis I : ids_inside (tok set).
Lemma good_there : good_settings (settings_of set').
Proof.
  destruct G as [G1 G2 G3 G4 G5 G6]. constructor; try assumption. cbn [tokenizer_settings s_lookup] in *. intros bs i wid e H. rewrite (proj1 D) in H. eauto.
Qed.
Lemma view_there : s_view (settings_of set') = s_view (settings_of set).
Proof. cbn [tokenizer_settings s_view]. reflexivity. Qed.
Lemma providers_there : s_providers (settings_of set') = s_providers (settings_of set).
Proof. cbn [tokenizer_settings s_providers]. reflexivity. Qed.
Lemma costs_there : costs_in bits16 bits16 (tok set').
Proof.
  apply (costs_swap (settings_of set)); [exact view_there|exact providers_there| |exact C]. intros wid l r c' E.
  destruct (proj2 D wid) as [(l0 & r0 & c & c0 & E1 & E2 & L)|(e & e' & _ & E2)]; [|change (ls_params set' wid = Ok (l, r, c')) in E; congruence]. change (ls_params set' wid = Ok (l, r, c')) in E.
  pose proof (ci_params _ _ _ C wid l0 r0 c E1) as C2. unfold bits16 in *. rewrite E2 in E. injection E as -> -> ->. lia.
Qed.
Lemma ids_there : ids_inside (tok set').
Proof.
  apply (ids_swap (settings_of set)); [exact view_there|exact providers_there| |exact I]. intros bs i wid e l r c' Hin E. change (In (wid, e) (fst (ls_lookup search set' bs i))) in Hin. change (ls_params set' wid = Ok (l, r, c')) in E.
  rewrite (proj1 D) in Hin. destruct (proj2 D wid) as [(l0 & r0 & c & c0 & E1 & E2 & _)|(x & e' & _ & E2)]; [|congruence]. rewrite E2 in E. injection E as -> -> ->. exists c. split; [exact Hin|exact E1].
Qed.

(** ** C98 *)
(** The same texts are analysed with the dearer words, at no lower cost; and at the same cost if
    the words that were found have kept theirs. *)
Theorem C98_dearer lat lat' t lat2 it p :
  P_Config.usable (tok set) lat -> P_Config.usable (tok set') lat' ->
  M_Tokenizer.run (tok set) lat t ModeC = (lat2, Ok (Some (it, p))) -> Z.of_nat (length (it_bytes it)) <= 32766 ->
  exists lat1 p', M_Tokenizer.run (tok set') lat' t ModeC = (lat1, Ok (Some (it, p'))) /\ path_cost g p <= path_cost g p' /\
    (same_costs set set' p -> path_cost g p' = path_cost g p).
Proof.
  intros U U' E Hn. pose proof good_there as G'. pose proof costs_there as C'. pose proof ids_there as I'.
  pose proof (shipped_sane _ G) as S. pose proof (shipped_sane _ G') as S'. destruct (run_answer _ _ _ _ _ _ _ _ _ _ _ _ _ _ _ E) as (Ht & Ep & lat1' & Ea). pose proof Ep as Ep'. rewrite <- prepare_there in Ep'.
  destruct (C15_minimal_cost _ _ _ _ _ _ S C I U Ht Ep Hn Ea) as (A & M). destruct (there it p A) as (q' & R & A').
  assert (NX : forall i q, tiles 0 (map to_step q) i -> Forall (considered (cfg := tok set') (it := it)) q -> can_bow it i = Ok true -> snd (run_candidates (tok set') it i) = None).
  { intros i q T F Hb. apply (proj1 (proj2 (candidates_repriced it i))). destruct (considered_back _ _ F) as (q0 & R0 & F0). apply (no_exception order lower nfkc search limit set table ins oovs g lat t it lat1' p G C I U Ht Ep Hn Ea i q0); [|exact F0|exact Hb]. exact (proj1 (proj1 (steps_repriced _ _ R0) _ _) T). }
  destruct (run_analyse (tok set') lat' it) as [lat1 r] eqn:Ea1.
  destruct (C16_fails_iff_no_analysis (tok set') lat' t it lat1 r S' C' I' U' Ht Ep' Hn NX Ea1) as (_ & HO). destruct (proj2 HO) as (p' & ->); [eauto|].
  destruct (C15_minimal_cost _ _ _ _ _ _ S' C' I' U' Ht Ep' Hn Ea1) as (A2 & M'). destruct (run_analysed order lower nfkc search limit set' table ins oovs g lat' t it lat1 p' G' U' Ht Ep' Ea1) as (lat3 & RN).
  exists lat3, p'. split; [exact RN|]. destruct (back it p' A2) as (q & Rq & Aq). specialize (M q Aq). specialize (M' q' A'). pose proof (path_repriced _ _ Rq) as L.
  rewrite !cost_path in *. split; [lia|]. intros K. rewrite (path_kept _ _ R K) in M'. lia.
Qed.
Theorem C98_before lat lat' t lat2 it p' :
  P_Config.usable (tok set) lat -> P_Config.usable (tok set') lat' ->
  M_Tokenizer.run (tok set') lat' t ModeC = (lat2, Ok (Some (it, p'))) -> Z.of_nat (length (it_bytes it)) <= 32766 ->
  exists lat1 p, M_Tokenizer.run (tok set) lat t ModeC = (lat1, Ok (Some (it, p))) /\ path_cost g p <= path_cost g p'.
Proof.
  intros U U' E Hn. pose proof good_there as G'. pose proof costs_there as C'. pose proof ids_there as I'.
  pose proof (shipped_sane _ G) as S. pose proof (shipped_sane _ G') as S'. destruct (run_answer _ _ _ _ _ _ _ _ _ _ _ _ _ _ _ E) as (Ht & Ep' & lat1' & Ea). pose proof Ep' as Ep. rewrite prepare_there in Ep.
  destruct (C15_minimal_cost _ _ _ _ _ _ S' C' I' U' Ht Ep' Hn Ea) as (A & _). destruct (back it p' A) as (q & R & A').
  assert (NX : forall i q, tiles 0 (map to_step q) i -> Forall (considered (cfg := tok set) (it := it)) q -> can_bow it i = Ok true -> snd (run_candidates (tok set) it i) = None).
  { intros i q0 T F Hb. apply (proj2 (proj2 (candidates_repriced it i))). destruct (considered_there _ _ F) as (q1 & R1 & F1). apply (no_exception order lower nfkc search limit set' table ins oovs g lat' t it lat1' p' G' C' I' U' Ht Ep' Hn Ea i q1); [|exact F1|exact Hb]. exact (proj2 (proj1 (steps_repriced _ _ R1) _ _) T). }
  destruct (run_analyse (tok set) lat it) as [lat1 r] eqn:Ea1.
  destruct (C16_fails_iff_no_analysis (tok set) lat t it lat1 r S C I U Ht Ep Hn NX Ea1) as (_ & HO). destruct (proj2 HO) as (p & ->); [eauto|].
  destruct (C15_minimal_cost _ _ _ _ _ _ S C I U Ht Ep Hn Ea1) as (_ & M). destruct (run_analysed order lower nfkc search limit set table ins oovs g lat t it lat1 p G U Ht Ep Ea1) as (lat3 & RN).
  exists lat3, p. split; [exact RN|]. specialize (M q A'). pose proof (path_repriced _ _ R) as L. rewrite !cost_path in *. lia.
Qed.
End tokenizers.
(** Setting the cost of a word of one dictionary to a larger one makes the dictionaries dearer. *)
Section set_cost.
Variable search : bytes -> bytes -> list (Z * nat).
Variables (k : nat) (lx lx' : lexicon) (w v old : Z).
Hypothesis E : lx_set_cost lx w v = Ok lx'.
Hypothesis O : lx_cost lx w = Ok old.
Hypothesis L : old <= v.
Definition replaced (x y : nat * lexicon) : Prop := y = x \/ (x = (k, lx) /\ y = (k, lx')).
Lemma set_cost_inv : v <= 32767 /\ set_nth (lx_params lx) (3 * Z.to_nat w + 2) v = Ok (lx_params lx') /\ lx_trie lx' = lx_trie lx /\ lx_wids lx' = lx_wids lx.
Proof.
  unfold lx_set_cost in E. destruct (_ && _) eqn:B; [|discriminate]. apply andb_prop in B as (_ & B). apply Z.leb_le in B. apply bind_ok in E as (ps & Hps & [= <-]). cbn. auto.
Qed.
Lemma replaced_lookup x y t i : replaced x y -> lx_lookup search (snd y) t i = lx_lookup search (snd x) t i.
Proof. destruct set_cost_inv as (_ & _ & E1 & E2). intros [->|(-> & ->)]; [reflexivity|]. cbn [snd]. unfold lx_lookup. now rewrite E1, E2. Qed.
Lemma pairs_length s s' d l : length (ls_lexicons s') = length (ls_lexicons s) -> ls_pairs s' d l = ls_pairs s d l.
Proof. intros H. induction l as [|(x, e) l IH]; [reflexivity|]. cbn [ls_pairs]. unfold ls_build_word_id. now rewrite H, IH. Qed.
Lemma lookup_in s s' t i l l' : length (ls_lexicons s') = length (ls_lexicons s) ->
  Forall2 (fun x y => fst y = fst x /\ lx_lookup search (snd y) t i = lx_lookup search (snd x) t i) l l' -> ls_lookup_in search s' t i l' = ls_lookup_in search s t i l.
Proof.
  intros H. induction 1 as [|(d, x) (d', y) l l' (E1 & E2) F IH]; [reflexivity|]. cbn [fst snd] in *. subst d'. cbn [ls_lookup_in]. rewrite E2, IH.
  destruct (lx_lookup search x t i) as [found x0]. now rewrite (pairs_length s s' d found H).
Qed.
Lemma replaced_set l l' offs t i : Forall2 replaced l l' -> ls_lookup search (LexSet l' offs) t i = ls_lookup search (LexSet l offs) t i.
Proof.
  intros F. unfold ls_lookup. cbn [ls_lexicons]. destruct F as [|x y r r' R F]; [reflexivity|]. destruct F as [|x1 y1 r r' R1 F]; [now apply replaced_lookup|].
  apply lookup_in; [cbn; f_equal; f_equal; clear - F; induction F; cbn; congruence|]. apply Forall2_app; [|constructor; [split; [reflexivity|cbn [snd]; apply replaced_lookup; exact R]|constructor]].
  assert (X : forall r r' n, Forall2 replaced r r' -> Forall2 (fun x y => fst y = fst x /\ lx_lookup search (snd y) t i = lx_lookup search (snd x) t i) (combine (seq n (length r)) (map snd r)) (combine (seq n (length r')) (map snd r'))).
  { clear - E. intros r r' n F. revert n. induction F as [|a b r r' R F IH]; intros n; cbn [length seq map combine]; constructor; [|apply IH]. cbn [fst snd]. split; [reflexivity|now apply replaced_lookup]. }
  apply X. constructor; assumption.
Qed.
Lemma replaced_get l l' : Forall2 replaced l l' -> forall n, match get l n, get l' n with Ok x, Ok y => replaced x y | Err a, Err b => a = b | _, _ => False end.
Proof.
  induction 1 as [|x y l l' R F IH]; intros n; unfold get in *; [destruct n; reflexivity|]. destruct n as [|n]; cbn [nth_error]; [exact R|apply IH].
Qed.
End set_cost.
Theorem C98_set_cost search ls1 k lx ls2 offs w v old lx' :
  lx_set_cost lx w v = Ok lx' -> lx_cost lx w = Ok old -> old <= v ->
  (forall wid l r c, ls_params (LexSet (ls1 ++ (k, lx) :: ls2) offs) wid = Ok (l, r, c) -> c <= 32767) ->
  pricier search (LexSet (ls1 ++ (k, lx) :: ls2) offs) (LexSet (ls1 ++ (k, lx') :: ls2) offs).
Proof.
  intros E O L B. assert (F : Forall2 (replaced k lx lx') (ls1 ++ (k, lx) :: ls2) (ls1 ++ (k, lx') :: ls2)).
  { assert (X : forall l, Forall2 (replaced k lx lx') l l) by (induction l; constructor; [now left|assumption]). apply Forall2_app; [apply X|]. constructor; [right; auto|apply X]. }
  split; [intros bs i; eapply replaced_set; eauto|]. intros wid. specialize (B wid). pose proof (replaced_get _ _ _ _ _ F (Z.to_nat (ls_dictionary_id wid))) as R.
  unfold ls_params, ls_left_id, ls_right_id, ls_cost, ls_lexicon in *. cbn [ls_lexicons] in *.
  destruct (get (ls1 ++ (k, lx) :: ls2) _) as [x|] eqn:E1, (get (ls1 ++ (k, lx') :: ls2) _) as [y|] eqn:E2; try contradiction; cbn [bind] in *; [|right; eauto].
  destruct (set_cost_inv _ _ _ _ E) as (V & Sn & _ & _). destruct (set_nth_same _ _ _ _ Sn) as (S1 & _).
  assert (OT : forall j, j <> (3 * Z.to_nat w + 2)%nat -> get (lx_params lx') j = get (lx_params lx) j) by (intros j N; eapply set_nth_other; eauto).
  destruct R as [->|(-> & ->)]; cbn [snd] in *.
  - destruct (lx_left_id (snd x) _) as [a|]; cbn [bind] in *; [|right; eauto]. destruct (lx_right_id (snd x) _) as [b|]; cbn [bind] in *; [|right; eauto].
    destruct (lx_cost (snd x) _) as [c|]; cbn [bind] in *; [|right; eauto]. left. exists a, b, c, c. repeat split; try lia. eapply B; eauto.
  - unfold lx_left_id, lx_right_id, lx_cost in *. rewrite !(OT (3 * _)%nat), !(OT (3 * _ + 1)%nat) by lia.
    destruct (get (lx_params lx) (3 * _)) as [a|]; cbn [bind] in *; [|right; eauto]. destruct (get (lx_params lx) (3 * _ + 1)) as [b|]; cbn [bind] in *; [|right; eauto].
    destruct (Nat.eq_dec (Z.to_nat (ls_word_id1 wid)) (Z.to_nat w)) as [W|W].
    + rewrite W, S1, O in *. cbn [bind] in *. left. exists a, b, old, v. repeat split; auto.
    + rewrite OT by lia. destruct (get (lx_params lx) (3 * Z.to_nat (ls_word_id1 wid) + 2)) as [c|]; cbn [bind] in *; [|right; eauto]. left. exists a, b, c, c. repeat split; try lia. eapply B; eauto.
Qed.
Print Assumptions C98_dearer.
Print Assumptions C98_before.
Print Assumptions C98_set_cost.

(** ** The hypotheses are met *)
(** The dictionaries of Prop_System, and with the cost of one word of the system dictionary set to
    another. *)
Definition with_cost (set : lexset) (w v : Z) : lexset :=
  match ls_lexicons set with
  | (k, lx) :: r => match lx_set_cost lx w v with Ok lx' => LexSet ((k, lx') :: r) (ls_offsets set) | Err _ => set end
  | [] => set
  end.
Lemma with_cost_pricier search set w v old : (forall wid l r c, ls_params set wid = Ok (l, r, c) -> c <= 32767) ->
  match ls_lexicons set with (_, lx) :: _ => match lx_set_cost lx w v with Ok _ => lx_cost lx w | Err x => Err x end | [] => Err EIndex end = Ok old -> old <= v -> pricier search set (with_cost set w v).
Proof.
  destruct set as [ls offs]. unfold with_cost. cbn [ls_lexicons ls_offsets]. destruct ls as [|(k, lx) r]; [discriminate|]. intros B O L. destruct (lx_set_cost lx w v) as [lx'|] eqn:E; [|discriminate].
  exact (C98_set_cost search [] k lx r offs w v old lx' E O L B).
Qed.
Lemma param_costs order lower nfkc search limit m : costs_in bits16 bits16 (created order lower nfkc search limit m) -> forall wid l r c, ls_params (ds_lexicon (md_set m)) wid = Ok (l, r, c) -> c <= 32767.
Proof. intros C wid l r c E. pose proof (ci_params _ _ _ C wid l r c E) as B. unfold bits16 in B. lia. Qed.
Definition with_set (set : lexset) : settings :=
  tokenizer_settings (fun l => l) (fun x => [x]) (fun t => t) toy_search 10 (ds_grammar (md_set toy_made)) set (md_table toy_made) (md_inputs toy_made) (md_providers toy_made) [].
Definition set_answer (set : lexset) (t : text) : res (option (list (nat * nat) * Z)) :=
  r <- snd (M_Tokenizer.run (shipped (with_set set)) new_lattice t ModeC) ;;
  Ok (option_map (fun r => (map (fun w => (w_begin w, w_end w)) (snd r), path_cost (ds_grammar (md_set toy_made)) (snd r))) r).
Example C98_nonvacuous :
  let set := ds_lexicon (md_set toy_made) in
  good_settings (with_set set) /\ costs_in bits16 bits16 (shipped (with_set set)) /\ ids_inside (shipped (with_set set)) /\
  pricier toy_search set (with_cost set 1 9000) /\ pricier toy_search set (with_cost set 0 9000) /\
  ls_params set 1 = Ok (1, 1, -5) /\ ls_params (with_cost set 1 9000) 1 = Ok (1, 1, 9000) /\
  set_answer set [26481; 20140; 37117] = Ok (Some ([(0, 3); (3, 6); (6, 9)]%nat, 9)) /\
  set_answer (with_cost set 1 9000) [26481; 20140; 37117] = Ok (Some ([(0, 6); (6, 9)]%nat, 19)) /\
  set_answer (with_cost set 0 9000) [26481; 20140; 37117] = Ok (Some ([(0, 3); (3, 6); (6, 9)]%nat, 9)).
Proof.
  cbv zeta. pose proof toy_is_made as MK. unfold toy_make in MK.
  destruct (without_rewriters (fun l => l) (fun x => [x]) (fun t => t) toy_search 10 toy_made) as (WG & WC & WI & _).
  pose proof (live_costs _ _ _ _ _ _ _ _ _ _ _ _ _ _ _ _ _ _ _ _ _ _ _ toy_built_from MK toy_files toy_furnished) as C.
  split; [exact (WG (settings_good _ _ _ _ _ _ _ _ _ _ _ _ _ _ _ _ _ _ _ _ _ _ _ toy_built_from MK toy_interpreter toy_plain))|]. split; [exact (WC C)|].
  split; [exact (WI (live_ids _ _ _ _ _ _ _ _ _ _ _ _ _ _ _ _ _ _ _ _ _ _ _ toy_built_from MK toy_furnished))|]. pose proof (param_costs _ _ _ _ _ _ C) as B. clear WG WC WI C.
  split; [apply (with_cost_pricier _ _ 1 9000 (-5) B); [vm_compute; reflexivity|lia]|]. split; [apply (with_cost_pricier _ _ 0 9000 100 B); [vm_compute; reflexivity|lia]|].
  repeat match goal with |- _ /\ _ => split end; vm_compute; reflexivity.
Qed.
Print Assumptions C98_nonvacuous.
