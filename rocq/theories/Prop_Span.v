(** Property C95: the words that the lattice holds for path rewriting plugins. *)
From Coq Require Import String Ascii List ZArith Lia Bool Arith.
From Verif Require Import Base Utf8 M_Builder M_CharCategory M_InputText M_InputPlugins M_Lattice M_Oov M_Tokenizer M_PathRewrite M_Morphemes M_Shipped M_DicReader M_LexiconSet M_Front M_Resource M_Setup
  S_Text S_Lattice S_Rewrite P_Builder P_InputText P_Lattice P_Tokenizer P_Path P_Config P_LexiconSet Prop_Tokenizer Prop_Shipped Prop_Lattice.
Import ListNotations.
Open Scope list_scope.
Open Scope nat_scope.

Definition at_end (lists : list (list lnode)) (e : nat) : list wnode := match nth_error lists e with Some ls => map ln_word ls | None => [] end.
Definition begins_at (b : nat) (w : wnode) : bool := w_begin w =? b.
Definition ends_at (e : nat) (w : wnode) : bool := w_end w =? e.

Section words.
Variable view : Z -> Z -> option Z.
Variable bosp eosp : Z * Z * Z.
Variable bow : nat -> res bool.
Variable cands : nat -> gen wnode.
Variable n : nat.
Notation cand_word := (cand_word bow cands n).
Notation rpath := (rpath bow cands n).
Hypothesis cands_ok : forall w, cand_word w -> w_begin w < w_end w <= n.
Hypothesis cands_begin : forall i w, In w (fst (cands i)) -> w_begin w = i.

Lemma insert_at lat w lat' : w_end w <= n -> n < length (l_lists lat) -> lat_insert view lat w = Ok lat' ->
  length (l_lists lat') = length (l_lists lat) /\
  forall e, at_end (l_lists lat') e = at_end (l_lists lat) e ++ filter (ends_at e) [w].
Proof.
  intros Hw Hn E. unfold lat_insert in E.
  apply bind_ok in E as (ls & El & E). apply bind_ok in E as (nd & En & E). apply bind_ok in E as (lists & Es & [= <-]).
  destruct (set_nth_total (l_lists lat) (w_end w) (ls ++ [nd])) as (l' & E' & Hl & Hx); [lia|].
  rewrite Es in E'. injection E' as <-. cbn [l_lists]. split; [exact Hl|]. intros e. unfold at_end. rewrite Hx. cbn [filter]. unfold ends_at at 1.
  assert (W : ln_word nd = w). { unfold connect_node in En. apply bind_ok in En as (ls' & _ & En). destruct (connect_loop view w ls' (INT_MAX, None)) as [[tot prev] [|]]; injection En as <-; reflexivity. }
  destruct (Nat.eqb_spec e (w_end w)) as [->|N].
  - rewrite Nat.eqb_refl. apply get_ok in El. rewrite El, map_app. cbn [map]. now rewrite W.
  - replace (w_end w =? e) with false by (symmetry; apply Nat.eqb_neq; auto). now rewrite app_nil_r.
Qed.
Lemma insert_all_at ws : forall lat lat', (forall w, In w ws -> w_end w <= n) -> n < length (l_lists lat) -> insert_all view lat ws = (lat', None) ->
  length (l_lists lat') = length (l_lists lat) /\
  forall e, at_end (l_lists lat') e = at_end (l_lists lat) e ++ filter (ends_at e) ws.
Proof.
  induction ws as [|w ws IH]; intros lat lat' Hw Hn E; cbn [insert_all] in E.
  - injection E as <-. split; [reflexivity|]. intros e. cbn. now rewrite app_nil_r.
  - destruct (lat_insert view lat w) as [lat1|] eqn:E1; [|discriminate]. apply insert_at in E1 as (L1 & A1); [|apply Hw; now left|exact Hn].
    apply IH in E as (L2 & A2); [|intros x Hx; apply Hw; now right|lia]. split; [lia|]. intros e. rewrite A2, A1, <- app_assoc. f_equal.
    cbn [filter]. destruct (ends_at e w); reflexivity.
Qed.

(** The lattice after the positions before [i] *)
Record holds (i : nat) (lists : list (list lnode)) : Prop := {
  ho_length : n < length lists;
  ho_zero : at_end lists 0 <> [];
  ho_sound : forall e w, 0 < e <= n -> In w (at_end lists e) -> w_begin w < i /\ w_end w = e /\ cand_word w /\ exists r, rpath r (w_begin w);
  ho_all : forall b e, 0 < e <= n -> b < i -> b < n -> bow b = Ok true -> (exists r, rpath r b) ->
    filter (begins_at b) (at_end lists e) = filter (ends_at e) (fst (cands b))
}.

Lemma holds_previous i lists : holds i lists -> i <= n -> (at_end lists i <> [] <-> exists r, rpath r i).
Proof.
  intros H Hi. destruct (Nat.eq_dec i 0) as [->|N0]; [split; [intros _; exists []; constructor|intros _; apply (ho_zero _ _ H)]|]. split.
  - intros X. destruct (at_end lists i) as [|w l] eqn:E; [congruence|]. destruct (ho_sound _ _ H i w) as (_ & <- & C & r & R); [lia|rewrite E; now left|].
    exists (w :: r). constructor; assumption.
  - intros (r & R). inversion R as [X Y|w r' R' C X Y]; [congruence|]. subst i. destruct (cands_ok _ C) as (C1 & C2). destruct C as (D1 & D2 & D3).
    pose proof (ho_all _ _ H (w_begin w) (w_end w) ltac:(lia) ltac:(lia) D1 D2 (ex_intro _ _ R')) as A.
    assert (I : In w (filter (ends_at (w_end w)) (fst (cands (w_begin w))))) by (apply filter_In; split; [exact D3|unfold ends_at; apply Nat.eqb_eq; lia]).
    rewrite <- A in I. apply filter_In in I as (I & _). intros Z. now rewrite Z in I.
Qed.
Lemma filter_none {A} (f : A -> bool) l : (forall x, In x l -> f x = false) -> filter f l = [].
Proof. induction l as [|x l IH]; intros H; [reflexivity|]. cbn. rewrite (H x) by now left. apply IH. intros y Hy. apply H. now right. Qed.
Lemma filter_every {A} (f : A -> bool) l : (forall x, In x l -> f x = true) -> filter f l = l.
Proof. induction l as [|x l IH]; intros H; [reflexivity|]. cbn. rewrite (H x) by now left. f_equal. apply IH. intros y Hy. apply H. now right. Qed.

Lemma build_at_holds lat i lat' : i < n -> holds i (l_lists lat) -> build_at view bow cands lat i = (lat', None) -> holds (S i) (l_lists lat').
Proof.
  intros Hi H E. pose proof (holds_previous _ _ H ltac:(lia)) as HP. unfold build_at in E. destruct (bow i) as [[|]|] eqn:Eb; [| |discriminate].
  2:{ injection E as <-. destruct H as [H1 H2 H3 H4]. constructor; auto.
      - intros e w He Hw. destruct (H3 e w He Hw) as (A & B). split; [lia|exact B].
      - intros b e He Hb Hb' B R. apply H4; auto. destruct (Nat.eq_dec b i) as [->|]; [congruence|lia]. }
  unfold has_previous_node, get in E. destruct (nth_error (l_lists lat) i) as [ls|] eqn:El; cbn [bind] in E; [|discriminate].
  assert (PV : at_end (l_lists lat) i <> [] <-> ls <> []) by (unfold at_end; rewrite El; destruct ls; cbn; split; congruence).
  destruct ls as [|l0 ls].
  - injection E as <-. destruct H as [H1 H2 H3 H4]. constructor; auto.
    + intros e w He Hw. destruct (H3 e w He Hw) as (A & B). split; [lia|exact B].
    + intros b e He Hb Hb' B R. apply H4; auto. destruct (Nat.eq_dec b i) as [->|]; [|lia]. apply HP in R. apply PV in R. congruence.
  - destruct (cands i) as [ws x] eqn:Ec. destruct (insert_all view lat ws) as [lat1 [x1|]] eqn:Ei; [discriminate|]. injection E as <- ->.
    assert (R : exists r, rpath r i) by (apply HP, PV; discriminate).
    assert (CW : forall w, In w ws -> cand_word w). { intros w Hw. assert (I : In w (fst (cands i))) by now rewrite Ec. pose proof (cands_begin _ _ I) as B. unfold P_Lattice.cand_word. rewrite B. auto. }
    destruct (insert_all_at ws lat lat1) as (L & A); [intros w Hw; apply cands_ok, CW, Hw|apply (ho_length _ _ H)|exact Ei|].
    destruct H as [H1 H2 H3 H4]. constructor.
    + lia.
    + rewrite A. intros X. apply app_eq_nil in X as (X & _). contradiction.
    + intros e w He Hw. rewrite A in Hw. apply in_app_or in Hw as [Hw|Hw]; [destruct (H3 e w He Hw) as (A1 & B1); split; [lia|exact B1]|].
      apply filter_In in Hw as (Hw & Hx). apply Nat.eqb_eq in Hx. assert (B : w_begin w = i) by (apply cands_begin; now rewrite Ec).
      split; [lia|]. split; [exact Hx|]. split; [now apply CW|]. now rewrite B.
    + intros b e He Hb Hb' B Rb. rewrite A, filter_app. destruct (Nat.eq_dec b i) as [->|N].
      * rewrite Ec. cbn [fst]. rewrite filter_none, filter_every; [reflexivity| |].
        -- intros w Hw. apply filter_In in Hw as (Hw & _). unfold begins_at. apply Nat.eqb_eq, cands_begin. now rewrite Ec.
        -- intros w Hw. destruct (H3 e w He Hw) as (X & _). unfold begins_at. apply Nat.eqb_neq. lia.
      * rewrite (H4 b e) by (auto; lia). rewrite (filter_none (begins_at b) (filter _ ws)), app_nil_r; [reflexivity|].
        intros w Hw. apply filter_In in Hw as (Hw & _). unfold begins_at. apply Nat.eqb_neq. rewrite (cands_begin i w) by now rewrite Ec. auto.
Qed.
Lemma build_from_holds k : forall lat i lat', i + k = n -> holds i (l_lists lat) -> build_from view bow cands lat i k = (lat', None) -> holds n (l_lists lat').
Proof.
  induction k as [|k IH]; intros lat i lat' Hi H E; cbn [build_from] in E.
  - injection E as <-. now replace n with i by lia.
  - destruct (build_at view bow cands lat i) as [lat1 [x|]] eqn:E1; [discriminate|]. apply build_at_holds in E1; [|lia|exact H]. eapply IH; [|exact E1|exact E]. lia.
Qed.
Lemma build_lattice_holds lat lat' : clean bosp lat -> build_lattice view eosp bow cands lat n = (lat', None) -> holds n (l_lists lat').
Proof.
  intros Hc E. unfold build_lattice in E. destruct (build_from view bow cands (lat_resize eosp lat n) 0 n) as [lat1 [x|]] eqn:E1; [discriminate|].
  destruct (connect_eos view lat1) as [lat2|] eqn:E2; [|discriminate]. injection E as <-.
  assert (L : l_lists lat2 = l_lists lat1). { unfold connect_eos in E2. destruct (l_eos lat1); [|discriminate]. apply bind_ok in E2 as (nd & _ & [= <-]). reflexivity. }
  rewrite L. eapply build_from_holds in E1; [exact E1|lia|].
  destruct Hc as (Hs & k & Hl & Hk).
  assert (H : exists k', n <= k' /\ l_lists (lat_resize eosp lat n) = [bos_node bosp] :: repeat [] k').
  { unfold lat_resize. destruct (Nat.ltb_spec (l_cap lat) n); cbn [l_lists lat_expand].
    - exists (k + (n - l_size lat)). split; [lia|]. rewrite Hl, repeat_app. reflexivity.
    - exists k. split; auto. lia. }
  destruct H as (k' & Hk' & ->). constructor.
  - cbn [length]. rewrite repeat_length. lia.
  - discriminate.
  - intros [|e] w He Hw; [lia|]. unfold at_end in Hw. cbn [nth_error] in Hw. destruct (nth_error (repeat [] k') e) as [ls|] eqn:En; [|contradiction]. apply nth_error_repeat in En. subst. contradiction.
  - intros; lia.
Qed.
End words.

(** ** C95 *)
(** A position that words which the tokenizer considers lead to. *)
Definition reached (cfg : config) (it : input_text) (b : nat) : Prop :=
  exists q, tiles 0 (map to_step q) b /\ Forall (considered (cfg := cfg) (it := it)) q.

(** After the analysis the lattice has, for every span, the words that were found for it, in the
    order in which they were found, if a word may begin there and the position is reached; and
    otherwise none. *)
Theorem C95_words cfg lat t it lat' p :
  sane cfg -> usable cfg lat -> t <> [] -> run_prepare cfg t = Ok it -> run_analyse cfg lat it = (lat', Ok p) ->
  forall b e, 0 < e <= length (it_bytes it) ->
    (b < length (it_bytes it) -> can_bow it b = Ok true -> reached cfg it b ->
       get_nodes lat' b e = Ok (filter (fun w => w_end w =? e) (fst (run_candidates cfg it b)))) /\
    (~ (b < length (it_bytes it) /\ can_bow it b = Ok true /\ reached cfg it b) -> get_nodes lat' b e = Ok []).
Proof.
  intros S U Ht Hp E b e He. destruct (run_prepare_built cfg t it S Ht Hp) as (bd & _ & _ & B).
  assert (H : holds (can_bow it) (run_candidates cfg it) (length (it_bytes it)) (length (it_bytes it)) (l_lists lat')).
  { unfold run_analyse, analyse in E. destruct (build_lattice _ _ _ _ _ _) as [lat1 [x|]] eqn:E1; [discriminate|]. injection E as <- E.
    eapply build_lattice_holds in E1; [exact E1|apply (considered_range S B)|apply cands_begin'|apply (usable_clean _ _ S U)]. }
  assert (RQ : forall i, reached cfg it i <-> exists r, rpath (can_bow it) (run_candidates cfg it) (length (it_bytes it)) r i).
  { intros i. split.
    - intros (q & T & F). exists (rev q). apply rpath_tiles; [apply (considered_range S B)|]. rewrite rev_involutive. split; [exact T|]. apply Forall_rev. exact F.
    - intros (r & R). apply rpath_tiles in R as (T & F); [|apply (considered_range S B)]. exists (rev r). split; [exact T|]. apply Forall_rev. exact F. }
  assert (G : get_nodes lat' b e = Ok (filter (begins_at b) (at_end (l_lists lat') e))).
  { unfold get_nodes, get, at_end. destruct (nth_error (l_lists lat') e) eqn:En; [reflexivity|]. apply nth_error_None in En. pose proof (ho_length _ _ _ _ _ H). lia. }
  split.
  - intros Hb Hw R. rewrite G, (ho_all _ _ _ _ _ H) by (auto; now apply RQ). reflexivity.
  - intros N. rewrite G. f_equal. apply filter_none. intros w Hw. destruct (ho_sound _ _ _ _ _ H e w He Hw) as (X1 & X2 & (X3 & X4 & X5) & R).
    unfold begins_at. apply Nat.eqb_neq. intros <-. apply N. split; [exact X3|]. split; [exact X4|]. now apply RQ.
Qed.
Print Assumptions C95_words.

Lemma tiles_prefix p x q n : forall b, tiles b (map to_step (p ++ x :: q)) n -> tiles b (map to_step p) (w_begin x).
Proof.
  induction p as [|y p IH]; intros b H; cbn [app map tiles] in *.
  - destruct H as (H1 & _). cbn in H1. auto.
  - destruct H as (H1 & H2 & H3). auto.
Qed.
(** So it is where a word of the chosen path begins: all words that begin there are at hand. *)
Theorem C95_on_path cfg lat t it lat' p :
  sane cfg -> usable cfg lat -> t <> [] -> run_prepare cfg t = Ok it -> run_analyse cfg lat it = (lat', Ok p) ->
  forall x e, In x p -> 0 < e <= length (it_bytes it) ->
    get_nodes lat' (w_begin x) e = Ok (filter (fun w => w_end w =? e) (fst (run_candidates cfg it (w_begin x)))) /\
    forall w, lattice_word lat' (w_begin x) e w <-> In w (fst (run_candidates cfg it (w_begin x))) /\ w_end w = e.
Proof.
  intros S U Ht Hp E x e Hx He. destruct (run_prepare_built cfg t it S Ht Hp) as (bd & _ & _ & B).
  destruct (analyse_path S B lat lat' p (usable_clean _ _ S U) E) as (T & F & _).
  assert (G : get_nodes lat' (w_begin x) e = Ok (filter (fun w => w_end w =? e) (fst (run_candidates cfg it (w_begin x))))).
  { destruct (proj1 (Forall_forall _ _) F x Hx) as (X1 & X2 & _). apply (C95_words cfg lat t it lat' p S U Ht Hp E); auto.
    apply in_split in Hx as (p1 & p2 & ->). exists p1. split; [eapply tiles_prefix; eauto|]. now apply Forall_app in F as (F & _). }
  split; [exact G|]. intros w. unfold get_nodes in G. apply bind_ok in G as (ls & El & G). injection G as G. apply get_ok in El.
  assert (Q : In w (filter (fun w => w_begin w =? w_begin x) (map ln_word ls)) <-> In w (filter (fun w => w_end w =? e) (fst (run_candidates cfg it (w_begin x))))) by (now rewrite G).
  rewrite !filter_In, !Nat.eqb_eq in Q. rewrite <- Q. unfold lattice_word. split.
  - intros (ls' & E' & I & Bw). rewrite El in E'. injection E' as <-. auto.
  - intros (I & Bw). exists ls. auto.
Qed.
Print Assumptions C95_on_path.

(** get_minimum_node answers the first of the cheapest words of a span, and None if there is none. *)
Theorem C95_minimum lat b e ws : get_nodes lat b e = Ok ws ->
  (ws = [] /\ get_minimum_node lat b e = Ok None) \/
  exists l1 w l2, ws = l1 ++ w :: l2 /\ get_minimum_node lat b e = Ok (Some w) /\
    (forall x, In x l1 -> (w_cost w < w_cost x)%Z) /\ (forall x, In x l2 -> (w_cost w <= w_cost x)%Z).
Proof.
  intros H. unfold get_minimum_node. rewrite H. cbn [bind]. destruct ws as [|w0 ws]; [auto|]. right. clear H.
  set (f := fun m x => if (w_cost x <? w_cost m)%Z then x else m).
  assert (Q : forall r d m, (forall x, In x d -> (w_cost m < w_cost x)%Z) -> forall mid, (forall x, In x mid -> (w_cost m <= w_cost x)%Z) ->
    exists l1 w l2, d ++ m :: mid ++ r = l1 ++ w :: l2 /\ fold_left f r m = w /\ (forall x, In x l1 -> (w_cost w < w_cost x)%Z) /\ (forall x, In x l2 -> (w_cost w <= w_cost x)%Z)).
  { induction r as [|x r IH]; intros d m D mid MM; cbn [fold_left].
    - exists d, m, mid. rewrite app_nil_r. auto.
    - assert (FM : f m x = if (w_cost x <? w_cost m)%Z then x else m) by reflexivity. rewrite FM. clear FM. destruct (Z.ltb_spec (w_cost x) (w_cost m)) as [L|L].
      + destruct (IH (d ++ m :: mid) x) with (mid := @nil wnode) as (l1 & w & l2 & Q1 & Q2).
        * intros y Hy. apply in_app_or in Hy as [Hy|[<-|Hy]]; [specialize (D y Hy); lia|lia|specialize (MM y Hy); lia].
        * intros y [].
        * exists l1, w, l2. split; [|exact Q2]. rewrite <- Q1. cbn [app]. now rewrite <- app_assoc.
      + destruct (IH d m D (mid ++ [x])) as (l1 & w & l2 & Q1 & Q2).
        * intros y Hy. apply in_app_or in Hy as [Hy|[<-|[]]]; [auto|lia].
        * exists l1, w, l2. split; [|exact Q2]. rewrite <- Q1. now rewrite <- app_assoc. }
  destruct (Q ws [] w0) with (mid := @nil wnode) as (l1 & w & l2 & Q1 & Q2 & Q3 & Q4); [intros x []|intros x []|].
  exists l1, w, l2. split; [exact Q1|]. rewrite Q2. auto.
Qed.
Print Assumptions C95_minimum.

(** The two together, for the spans that begin on the chosen path. *)
Corollary C95_cheapest cfg lat t it lat' p :
  sane cfg -> usable cfg lat -> t <> [] -> run_prepare cfg t = Ok it -> run_analyse cfg lat it = (lat', Ok p) ->
  forall x e, In x p -> 0 < e <= length (it_bytes it) ->
  let found w := In w (fst (run_candidates cfg it (w_begin x))) /\ w_end w = e in
  (forall w, get_minimum_node lat' (w_begin x) e = Ok (Some w) -> found w /\ forall y, found y -> (w_cost w <= w_cost y)%Z) /\
  (get_minimum_node lat' (w_begin x) e = Ok None <-> forall w, ~ found w).
Proof.
  intros S U Ht Hp E x e Hx He found. destruct (C95_on_path cfg lat t it lat' p S U Ht Hp E x e Hx He) as (G & _).
  assert (FI : forall w, In w (filter (fun w => w_end w =? e) (fst (run_candidates cfg it (w_begin x)))) <-> found w) by (intros w; unfold found; now rewrite filter_In, Nat.eqb_eq).
  destruct (C95_minimum _ _ _ _ G) as [(N & M)|(l1 & w0 & l2 & Q & M & Q1 & Q2)]; rewrite M.
  - split; [discriminate|]. split; [|auto]. intros _ w Fw. apply FI in Fw. now rewrite N in Fw.
  - assert (F0 : found w0) by (apply FI; rewrite Q; apply in_or_app; right; now left). split.
    + intros w [= <-]. split; [exact F0|]. intros y Fy. apply FI in Fy. rewrite Q in Fy. apply in_app_or in Fy as [Fy|[<-|Fy]]; [apply Z.lt_le_incl; auto|lia|auto].
    + split; [discriminate|]. intros N. destruct (N _ F0).
Qed.
Print Assumptions C95_cheapest.

(** ** The hypotheses are met *)
(** "abx": three homographs of "ab", the last two equally cheap; "b" is not reached. *)
Definition toy_homographs : config :=
  Config toy_view (fun _ => [DEFAULT])
    (fun bs i => (match skipn i bs with [97; 98; 120] => [(0, S (S i)); (7, S (S i)); (8, S (S i))] | [98; 120] => [(2, S i)] | _ => [] end, None)%Z)
    (fun w => if (7 <=? w)%Z then Ok (1, 1, 4)%Z else toy_params w) (fun _ => Err EKey) [] [toy_simple] [].
Lemma toy_homographs_sane : sane toy_homographs.
Proof.
  constructor; cbn; [discriminate|contradiction|]. intros bs i wid e H.
  assert (L : length (skipn i bs) = length bs - i) by apply skipn_length.
  destruct (skipn i bs) as [|c0 r]; [contradiction|]. cbn [length] in L. destruct r as [|c1 r]; [|destruct r as [|c2 r]; [|destruct r as [|c3 r]]];
    repeat match type of H with context [match ?z with _ => _ end] => destruct z; try contradiction end; cbn [fst In length] in *; intuition (try congruence); repeat match goal with X : (_, _) = (_, _) |- _ => injection X as <- <- end; lia.
Qed.
Example C95_nonvacuous :
  exists it lat' p, sane toy_homographs /\ run_prepare toy_homographs [97; 98; 120]%Z = Ok it /\ run_analyse toy_homographs new_lattice it = (lat', Ok p) /\
    map (fun w => (w_begin w, w_end w, w_id w, w_oov w)) p = [(0, 2, 7%Z, false); (2, 3, 0%Z, true)] /\
    (ws <- get_nodes lat' 0 2 ;; Ok (map (fun w => (w_id w, w_cost w)) ws)) = Ok [(0, 10); (7, 4); (8, 4)]%Z /\
    (m <- get_minimum_node lat' 0 2 ;; Ok (option_map w_id m)) = Ok (Some 7%Z) /\
    map w_id (fst (run_candidates toy_homographs it 1)) = [2%Z] /\ get_nodes lat' 1 2 = Ok [].
Proof.
  eexists _, _, _. split; [apply toy_homographs_sane|]. split; [vm_compute; reflexivity|]. split; [vm_compute; reflexivity|]. repeat split; vm_compute; reflexivity.
Qed.
Print Assumptions C95_nonvacuous.
