(** Proofs about tokenizer.pyx: candidates and the reuse of the lattice. *)
From Coq Require Import List ZArith Lia Bool Arith.
From Verif Require Import Base Utf8 M_Builder M_InputText M_Lattice M_Oov M_Tokenizer S_Text S_Lattice
  P_Builder P_InputText P_Accessors P_Oov P_Lattice.
Import ListNotations.
Open Scope nat_scope.

(** ** Candidates *)
Section cands.
Variable lookup : bytes -> nat -> gen (Z * nat).
Variable params : Z -> res (Z * Z * Z).
Variable providers : list provider.

Definition lex_candidate (it : input_text) (i : nat) (w : wnode) : Prop :=
  exists wid e l r c, In (wid, e) (fst (lookup (it_bytes it) i)) /\ params wid = Ok (l, r, c) /\
    (e < length (it_bytes it) -> can_bow it e = Ok true) /\
    (-2147483648 <= wid <= 2147483647)%Z /\
    w = WNode i e l r c wid false true None.

Lemma to_int_ok z z' : to_int z = Ok z' -> z' = z /\ (-2147483648 <= z <= 2147483647)%Z.
Proof. unfold to_int. destruct (_ && _) eqn:E; [|discriminate]. intros [= <-]. Zbool. lia. Qed.

Lemma lex_words_sound it i l w : In w (fst (lex_words params it i l)) ->
  exists wid e lf r c, In (wid, e) l /\ params wid = Ok (lf, r, c) /\
    (e < length (it_bytes it) -> can_bow it e = Ok true) /\
    (-2147483648 <= wid <= 2147483647)%Z /\
    w = WNode i e lf r c wid false true None.
Proof.
  induction l as [|[wid e] l IH]; cbn [lex_words]; [intros []|].
  assert (Hrec : In w (fst (lex_words params it i l)) -> exists wid0 e0 lf r c, In (wid0, e0) ((wid, e) :: l) /\ params wid0 = Ok (lf, r, c) /\
    (e0 < length (it_bytes it) -> can_bow it e0 = Ok true) /\ (-2147483648 <= wid0 <= 2147483647)%Z /\ w = WNode i e0 lf r c wid0 false true None).
  { intros H. destruct (IH H) as (a & b & c & d & f & H1 & H2). exists a, b, c, d, f. split; [now right|exact H2]. }
  destruct (if e <? length (it_bytes it) then can_bow it e else Ok true) as [[|]|] eqn:Eb; [|auto|intros []].
  destruct (bind (params wid) _) as [n|] eqn:En; [|intros []].
  destruct (lex_words params it i l) as [ns x]. cbn [fst] in *.
  intros [<-|H]; [|auto].
  apply bind_ok in En as (((lf & r) & c) & Ep & En). unfold lex_node in En. apply bind_ok in En as (wid' & Ew & [= <-]).
  apply to_int_ok in Ew as (-> & Hw).
  exists wid, e, lf, r, c. split; [now left|]. split; auto. split; [|auto].
  intros Hlt. apply Nat.ltb_lt in Hlt. now rewrite Hlt in Eb.
Qed.

Lemma oov_words_sound ps it i has w : In w (fst (oov_words ps it i has)) ->
  exists p h ns, In p ps /\ get_oov p it i h = Ok ns /\ In w ns.
Proof.
  revert has. induction ps as [|p ps IH]; intros has; cbn [oov_words]; [intros []|].
  destruct (get_oov p it i has) as [ns|] eqn:E; [|intros []].
  set (h := (has || _)%bool). specialize (IH h). clearbody h.
  destruct (oov_words ps it i h) as [ms x]. cbn [fst] in *.
  rewrite in_app_iff. intros [H|H].
  - exists p, has, ns. split; [now left|auto].
  - destruct (IH H) as (p' & h' & ns' & H1 & H2). exists p', h', ns'. split; [now right|auto].
Qed.

Lemma candidates_sound it i w : In w (fst (candidates lookup params providers it i)) ->
  lex_candidate it i w \/ exists p h ns, In p providers /\ get_oov p it i h = Ok ns /\ In w ns.
Proof.
  unfold candidates. destruct (lookup (it_bytes it) i) as [found x0] eqn:El.
  assert (Hlex : forall w, In w (fst (lex_words params it i found)) -> lex_candidate it i w).
  { intros v Hv. apply lex_words_sound in Hv as (a & b & c & d & f & H1 & H2).
    exists a, b, c, d, f. split; [rewrite El; exact H1|exact H2]. }
  destruct (lex_words params it i found) as [ws x1]. cbn [fst] in Hlex.
  destruct x1 as [x|]; [cbn [fst]; auto|].
  destruct x0 as [x|]; [cbn [fst]; auto|].
  destruct (get_cats_at it i) as [cats|]; [|cbn [fst]; auto].
  assert (Hos : forall w, In w (fst (if cat_mem NOOOVBOW cats then ([], None)
      else oov_words providers it i match ws with [] => false | _ :: _ => true end)) ->
      exists p h ns, In p providers /\ get_oov p it i h = Ok ns /\ In w ns).
  { destruct (cat_mem NOOOVBOW cats); [intros ? []|]. apply oov_words_sound. }
  destruct (if cat_mem NOOOVBOW cats then _ else _) as [os x2]. cbn [fst] in Hos.
  destruct x2 as [x|].
  { cbn [fst]. rewrite in_app_iff. intros [H|H]; auto. }
  destruct (ws ++ os) as [|a l] eqn:Eapp.
  - unfold default_oov. destruct (rev providers) as [|p ps] eqn:Er; [intros []|].
    assert (In p providers) by (apply in_rev; rewrite Er; now left).
    destruct (get_oov p it i false) as [ds|] eqn:Ed; [|intros []].
    destruct ds as [|d ds]; [intros []|]. cbn [fst]. intros Hw. right. exists p, false, (d :: ds). auto.
  - cbn [fst]. intros H. rewrite <- Eapp in H. apply in_app_or in H as [H|H]; auto.
Qed.

(** Unless an exception is raised there is a candidate. *)
Lemma candidates_nonempty it i : snd (candidates lookup params providers it i) = None ->
  fst (candidates lookup params providers it i) <> [].
Proof.
  unfold candidates. destruct (lookup (it_bytes it) i) as [found x0].
  destruct (lex_words params it i found) as [ws x1].
  destruct x1 as [x|]; [discriminate|]. destruct x0 as [x|]; [discriminate|].
  destruct (get_cats_at it i) as [cats|]; [|discriminate].
  destruct (if cat_mem NOOOVBOW cats then _ else _) as [os x2].
  destruct x2 as [x|]; [discriminate|].
  destruct (ws ++ os) as [|a l]; [|discriminate].
  destruct (default_oov providers it i) as [[|d ds]|]; discriminate.
Qed.

Lemma get_oov_begin p it i h ns w : get_oov p it i h = Ok ns -> In w ns -> w_begin w = i.
Proof.
  unfold get_oov. intros H Hw. apply bind_ok in H as (l & _ & [= <-]).
  apply in_map_iff in Hw as (x & <- & _). reflexivity.
Qed.

Lemma candidates_begin it i w : In w (fst (candidates lookup params providers it i)) -> w_begin w = i.
Proof.
  intros H. apply candidates_sound in H as [(a & b & c & d & f & _ & _ & _ & _ & ->)|(p & h & ns & _ & H & Hw)].
  - reflexivity.
  - eapply get_oov_begin; eauto.
Qed.

(** What is asked of a dictionary lookup: the words found are not empty and end
    within the text. *)
Definition lookup_ok : Prop :=
  forall bs i wid e, In (wid, e) (fst (lookup bs i)) -> i < e <= length bs.

Section built.
Context {t orig : text} {m2o : list nat} {cats : list (list cat)} {it : input_text}.
Context (B : built t orig m2o cats it).
Hypothesis Hlookup : lookup_ok.

(** An OOV node of a configured provider covers some characters of the text. *)
Lemma get_oov_span p h ns k w : k < length t -> get_oov p it (char_start t k) h = Ok ns -> In w ns ->
  exists j l r c ps, k < j <= length t /\ w = span_word (t := t) l r c ps k j /\
    match p with
    | Simple cfg => l = so_left cfg /\ r = so_right cfg /\ c = so_cost cfg /\ ps = so_pos cfg
    | MeCab cfg => exists ct oovs o, mc_oovs cfg ct = Some oovs /\ In o oovs /\
         l = oe_left o /\ r = oe_right o /\ c = oe_cost o /\ ps = oe_pos o
    end.
Proof.
  intros Hk E Hw. destruct p as [cfg|cfg].
  - destruct (simple_spec B cfg k h Hk) as (ns' & E' & H). rewrite E in E'. injection E' as <-.
    destruct h; [subst; contradiction|].
    destruct H as (j & Hj & _ & ->). destruct Hw as [<-|[]].
    exists j, (so_left cfg), (so_right cfg), (so_cost cfg), (so_pos cfg). repeat split; auto; lia.
  - destruct (mecab_spec B cfg k h Hk) as (ns' & s & e & c0 & E' & _ & _ & Hse & Hel & _ & H).
    rewrite E in E'. injection E' as <-. apply H in Hw as (c & _ & Hw).
    apply mecab_offers_span in Hw; [|lia]. destruct Hw as (j & o & Hj & -> & (oovs & Ho & Hin)).
    exists j, (oe_left o), (oe_right o), (oe_cost o), (oe_pos o). split; [lia|]. split; [reflexivity|]. eauto 10.
Qed.

Lemma bow_start i : can_bow it i = Ok true -> exists k, k < length t /\ i = char_start t k.
Proof.
  intros H. assert (Hlt : i < length (it_bytes it)).
  { unfold can_bow in H. apply bind_ok in H as (x & Hx & _). now apply get_ok_lt in Hx. }
  destruct (in_char_exists t _ i (bt_enc B) Hlt) as (k & Hk).
  destruct (can_bow_spec B i k Hk) as (b & Eb & Hb). rewrite Eb in H. injection H as ->.
  exists k. split; [apply Hk|]. now apply Hb.
Qed.

Lemma candidates_range i w : can_bow it i = Ok true ->
  In w (fst (candidates lookup params providers it i)) -> i < w_end w <= length (it_bytes it).
Proof.
  intros Hb Hw. apply bow_start in Hb as (k & Hk & ->).
  apply candidates_sound in Hw as [(wid & e & c & d & f & H1 & _ & _ & _ & ->)|(p & h & ns & _ & H & Hw)].
  - apply Hlookup in H1. exact H1.
  - destruct (get_oov_span p h ns k w Hk H Hw) as (j & l & r & c & ps & Hj & -> & _).
    cbn. split; [apply char_start_lt; lia|]. rewrite <- (len_bytes B). apply char_start_mono. lia.
Qed.
End built.
End cands.

(** ** The shape of the lattice, whatever happens *)
Lemma nth_error_ext {A} (l l' : list A) : (forall j, nth_error l j = nth_error l' j) -> l = l'.
Proof.
  revert l'. induction l as [|x l IH]; intros [|y l'] H; auto.
  - specialize (H 0). discriminate.
  - specialize (H 0). discriminate.
  - pose proof (H 0) as H0. cbn in H0. injection H0 as ->. f_equal. apply IH. intros j. exact (H (S j)).
Qed.

Lemma nth_error_repeat_lt {A} (x : A) m i : i < m -> nth_error (repeat x m) i = Some x.
Proof. revert i. induction m; intros [|i] H; cbn; auto; try lia. apply IHm. lia. Qed.

Section shape.
Variable view : Z -> Z -> option Z.
Notation conn := (cost_of view).
Variable bosp eosp : Z * Z * Z.
Variable bow : nat -> res bool.
Variable cands : nat -> gen wnode.
Variable n : nat.
Hypothesis cands_end : forall i w, bow i = Ok true -> In w (fst (cands i)) -> 0 < w_end w <= n.

Definition shape (lat : lattice) : Prop :=
  n < length (l_lists lat) /\ l_cap lat < length (l_lists lat) /\
  nth_error (l_lists lat) 0 = Some [bos_node bosp] /\
  forall e ls, n < e -> nth_error (l_lists lat) e = Some ls -> ls = [].

Lemma insert_shape lat w lat' : 0 < w_end w <= n -> shape lat -> lat_insert view lat w = Ok lat' ->
  shape lat' /\ l_size lat' = l_size lat.
Proof.
  intros Hw (H1 & H2 & H3 & H4) E. unfold lat_insert in E.
  apply bind_ok in E as (ls & _ & E). apply bind_ok in E as (nd & _ & E). apply bind_ok in E as (lists & Es & [= <-]).
  destruct (set_nth_total (l_lists lat) (w_end w) (ls ++ [nd])) as (l' & E' & Hl & Hn); [lia|].
  rewrite Es in E'. injection E' as <-. unfold shape. cbn [l_lists l_cap l_size]. rewrite Hl.
  split; [|auto]. split; auto. split; auto. split.
  - rewrite Hn. destruct (Nat.eqb_spec 0 (w_end w)); [lia|auto].
  - intros e ls' He. rewrite Hn. destruct (Nat.eqb_spec e (w_end w)); [lia|]. now apply H4.
Qed.

Lemma insert_all_shape ws : forall lat lat' x, (forall w, In w ws -> 0 < w_end w <= n) -> shape lat ->
  insert_all view lat ws = (lat', x) -> shape lat' /\ l_size lat' = l_size lat.
Proof.
  induction ws as [|w ws IH]; intros lat lat' x Hw Hs E; cbn [insert_all] in E.
  - injection E as <- <-. auto.
  - destruct (lat_insert view lat w) as [lat1|] eqn:E1.
    + apply insert_shape in E1 as (S1 & Z1); auto; [|apply Hw; now left].
      apply IH in E; auto; [|intros; apply Hw; now right]. destruct E. split; auto. congruence.
    + injection E as <- <-. auto.
Qed.

Lemma build_at_shape lat i lat' x : shape lat -> build_at view bow cands lat i = (lat', x) ->
  shape lat' /\ l_size lat' = l_size lat.
Proof.
  intros Hs E. unfold build_at in E.
  destruct (bow i) as [[|]|] eqn:Eb; [|injection E as <- <-; auto|injection E as <- <-; auto].
  destruct (has_previous_node lat i) as [[|]|]; [|injection E as <- <-; auto|injection E as <- <-; auto].
  destruct (cands i) as [ws e] eqn:Ec.
  destruct (insert_all view lat ws) as [lat1 x1] eqn:E1.
  apply insert_all_shape in E1; auto.
  2:{ intros w Hw. apply (cands_end i); auto. now rewrite Ec. }
  destruct x1; injection E as <- <-; auto.
Qed.

Lemma build_from_shape k : forall lat i lat' x, shape lat -> build_from view bow cands lat i k = (lat', x) ->
  shape lat' /\ l_size lat' = l_size lat.
Proof.
  induction k as [|k IH]; intros lat i lat' x Hs E; cbn [build_from] in E.
  - injection E as <- <-. auto.
  - destruct (build_at view bow cands lat i) as [lat1 [x1|]] eqn:E1; apply build_at_shape in E1; auto.
    + injection E as <- <-. auto.
    + destruct E1 as (S1 & Z1). apply IH in E; auto. destruct E. split; auto. congruence.
Qed.

Lemma resize_shape lat : clean bosp lat -> shape (lat_resize eosp lat n) /\ l_size (lat_resize eosp lat n) = n.
Proof.
  intros (Hs & k & Hl & Hk). split; [|reflexivity].
  unfold lat_resize, shape. destruct (Nat.ltb_spec (l_cap lat) n); cbn [lat_expand l_cap l_lists l_size].
  - rewrite Hl, Hs, app_length, repeat_length. cbn [length]. rewrite repeat_length. split; [lia|]. split; [lia|].
    split; [reflexivity|]. intros [|e] ls He Hn; [lia|]. cbn in Hn. rewrite <- repeat_app in Hn. now apply nth_error_repeat in Hn.
  - rewrite Hl. cbn [length]. rewrite repeat_length. split; [lia|]. split; [lia|].
    split; [reflexivity|]. intros [|e] ls He Hn; [lia|]. cbn in Hn. now apply nth_error_repeat in Hn.
Qed.

Lemma build_lattice_shape lat lat' x : clean bosp lat -> build_lattice view eosp bow cands lat n = (lat', x) ->
  shape lat' /\ l_size lat' = n.
Proof.
  intros Hc E. unfold build_lattice in E. destruct (resize_shape lat Hc) as (Hs & Hz).
  destruct (build_from view bow cands (lat_resize eosp lat n) 0 n) as [lat1 x1] eqn:E1.
  apply build_from_shape in E1; auto. destruct E1 as (S1 & Z1). rewrite Hz in Z1.
  destruct x1 as [x1|]; [injection E as <- <-; auto|].
  destruct (connect_eos view lat1) as [lat2|] eqn:E2.
  - injection E as <- <-. unfold connect_eos in E2. destruct (l_eos lat1); [|discriminate].
    apply bind_ok in E2 as (nd & _ & [= <-]). auto.
  - injection E as <- <-. auto.
Qed.

Lemma clear_loop ls m : forall i, 1 <= i -> i + m <= length ls ->
  exists ls', foldM (fun ls i => set_nth ls i []) ls (seq i m) = Ok ls' /\ length ls' = length ls /\
    forall j, nth_error ls' j = if ((i <=? j) && (j <? i + m)) then Some ([] : list lnode) else nth_error ls j.
Proof.
  revert ls. induction m as [|m IH]; intros ls i Hi Hl; cbn [seq foldM].
  - exists ls. split; auto. split; auto. intros j. destruct (Nat.leb_spec i j), (Nat.ltb_spec j (i + 0)); cbn; auto; lia.
  - destruct (set_nth_total ls i []) as (l1 & E1 & L1 & N1); [lia|]. rewrite E1. cbn [bind].
    destruct (IH l1 (S i)) as (l2 & E2 & L2 & N2); [lia|lia|]. exists l2. split; auto. split; [congruence|].
    intros j. rewrite N2, N1.
    destruct (Nat.leb_spec (S i) j), (Nat.leb_spec i j), (Nat.ltb_spec j (S i + m)), (Nat.ltb_spec j (i + S m)), (Nat.eqb_spec j i);
      cbn [andb]; auto; lia.
Qed.

Lemma clear_clean lat : shape lat -> l_size lat = n -> exists lat', lat_clear lat = Ok lat' /\ clean bosp lat'.
Proof.
  intros (H1 & H2 & H3 & H4) Hz. unfold lat_clear. rewrite Hz.
  destruct (clear_loop (l_lists lat) n 1) as (ls & E & L & N); [lia|lia|]. rewrite E. cbn [bind].
  eexists. split; [reflexivity|]. split; [reflexivity|]. cbn [l_lists l_cap].
  exists (length ls - 1). split; [|lia].
  apply nth_error_ext. intros j. rewrite N.
  destruct j as [|j]; [exact H3|].
  change (nth_error ([bos_node bosp] :: repeat [] (length ls - 1)) (S j)) with (nth_error (repeat (A := list lnode) [] (length ls - 1)) j).
  destruct (lt_dec j (length ls - 1)) as [Hj|Hj].
  - rewrite nth_error_repeat_lt by auto.
    destruct (Nat.leb_spec 1 (S j)), (Nat.ltb_spec (S j) (1 + n)); cbn [andb]; auto; try lia.
    destruct (nth_error (l_lists lat) (S j)) as [x|] eqn:Ex.
    + rewrite (H4 (S j) x) by (auto; lia); reflexivity.
    + apply nth_error_None in Ex. lia.
  - rewrite (proj2 (nth_error_None (repeat [] (length ls - 1)) j)) by (rewrite repeat_length; lia).
    destruct (Nat.leb_spec 1 (S j)), (Nat.ltb_spec (S j) (1 + n)); cbn [andb]; auto; try lia.
    + apply nth_error_None. lia.
Qed.
End shape.

(** ** From backward paths to the specification *)
Definition to_step (w : wnode) : step := Step (w_begin w) (w_end w) (w_left w) (w_right w) (w_cost w).

Lemma tiles_snoc b p s e : tiles b (p ++ [s]) e <-> tiles b p (s_begin s) /\ s_begin s < s_end s /\ s_end s = e.
Proof.
  revert b. induction p as [|x p IH]; intros b; cbn [app tiles].
  - split; intros H; intuition congruence.
  - rewrite IH. tauto.
Qed.

Lemma cost_snoc conn right p s final :
  cost_from conn right (p ++ [s]) final = (cost_from conn right p (s_left s) + s_cost s + conn final (s_right s))%Z.
Proof. revert right. induction p as [|x p IH]; intros right; cbn [app cost_from]; [lia|]. rewrite IH. lia. Qed.

Lemma allowed_snoc conn inh right p s final :
  allowed conn inh right (p ++ [s]) final <-> allowed conn inh right p (s_left s) /\ conn final (s_right s) <> inh.
Proof. revert right. induction p as [|x p IH]; intros right; cbn [app allowed]; [tauto|]. rewrite IH. tauto. Qed.

Section convert.
Variable view : Z -> Z -> option Z.
Notation conn := (cost_of view).
Variable bosp : Z * Z * Z.
Variable bow : nat -> res bool.
Variable cands : nat -> gen wnode.
Variable n : nat.
Hypothesis cands_ok : forall w, cand_word bow cands n w -> w_begin w < w_end w <= n.

Lemma rpath_tiles r e : rpath bow cands n r e <->
  tiles 0 (map to_step (rev r)) e /\ Forall (cand_word bow cands n) r.
Proof.
  revert e. induction r as [|w r IH]; intros e.
  - cbn. split; [inversion 1; auto|]. intros (<- & _). constructor.
  - cbn [rev]. rewrite map_app. cbn [map]. rewrite tiles_snoc. cbn [to_step s_begin s_end]. split.
    + inversion 1; subst. apply IH in H2 as (A & C). pose proof (cands_ok w H4). split; [|constructor; auto].
      split; auto. split; auto. lia.
    + intros ((A & C & <-) & F). inversion F; subst. constructor; auto. apply IH. auto.
Qed.

Lemma rcost_cost r final :
  (rcost view bosp r + conn final (right_of bosp r) = cost_from conn (w_right (bos_word bosp)) (map to_step (rev r)) final)%Z.
Proof.
  revert final. induction r as [|w r IH]; intros final; [reflexivity|].
  cbn [rev]. rewrite map_app. cbn [map]. rewrite cost_snoc, <- IH. cbn [to_step s_left s_cost s_right rcost right_of]. lia.
Qed.

Lemma rallowed_allowed r final :
  conn final (right_of bosp r) <> INHIBITED /\ rallowed view bosp r <->
  allowed conn INHIBITED (w_right (bos_word bosp)) (map to_step (rev r)) final.
Proof.
  revert final. induction r as [|w r IH]; intros final; [cbn; tauto|].
  cbn [rev]. rewrite map_app. cbn [map]. rewrite allowed_snoc, <- IH. cbn [to_step s_left s_cost s_right rallowed right_of]. tauto.
Qed.
End convert.

(** ** Totality of the construction *)
Section total.
Variable view : Z -> Z -> option Z.
Notation conn := (cost_of view).
Variable bosp eosp : Z * Z * Z.
Variable bow : nat -> res bool.
Variable cands : nat -> gen wnode.
Variable n : nat.
Hypothesis cands_ok : forall w, cand_word bow cands n w -> w_begin w < w_end w <= n.
Hypothesis cands_begin : forall i w, In w (fst (cands i)) -> w_begin w = i.
Hypothesis bow_total : forall i, i < n -> exists b, bow i = Ok b.
(** No exception at a position that a path reaches. *)
Hypothesis no_exn : forall i r, i < n -> bow i = Ok true -> rpath bow cands n r i -> snd (cands i) = None.

(** The nodes are right, as far as the construction is concerned. *)
Definition words_inv (D : wnode -> Prop) (lists : list (list lnode)) : Prop :=
  n < length lists /\ nth_error lists 0 = Some [bos_node bosp] /\
  (forall e l, 0 < e -> node_at lists e l -> w_end (ln_word l) = e /\ cand_word bow cands n (ln_word l) /\
     exists r, rpath bow cands n r (w_begin (ln_word l))) /\
  (forall w r, cand_word bow cands n w -> D w -> rpath bow cands n r (w_begin w) ->
     exists l, node_at lists (w_end w) l /\ ln_word l = w).

Lemma words_inv_ext (D D' : wnode -> Prop) lists :
  (forall w r, cand_word bow cands n w -> rpath bow cands n r (w_begin w) -> D' w -> D w) ->
  words_inv D lists -> words_inv D' lists.
Proof.
  intros H (I1 & I2 & I3 & I4). split; auto. split; auto. split; auto.
  intros w r Hw Hd Hr. apply (I4 w r); eauto.
Qed.

Lemma insert_words D lat w r : words_inv D (l_lists lat) -> cand_word bow cands n w -> rpath bow cands n r (w_begin w) ->
  exists lat', lat_insert view lat w = Ok lat' /\ words_inv (fun x => D x \/ x = w) (l_lists lat') /\
    l_eos lat' = l_eos lat.
Proof.
  intros (I1 & I2 & I3 & I4) Hc Hr. pose proof (cands_ok w Hc) as Hw.
  unfold lat_insert. destruct (get_lt (l_lists lat) (w_end w)) as (ls & Els); [lia|]. rewrite Els. cbn [bind].
  destruct (connect_node_total view (l_lists lat) w) as (tot & prev & EN); [lia|]. rewrite EN. cbn [bind].
  destruct (set_nth_total (l_lists lat) (w_end w) (ls ++ [LN w false tot prev])) as (lists' & Es & Hl' & Hn'); [lia|].
  rewrite Es. cbn [bind]. eexists. split; [reflexivity|]. cbn [l_lists l_eos]. split; [|reflexivity].
  apply get_ok in Els. split; [lia|]. split; [|split].
  - rewrite Hn'. destruct (Nat.eqb_spec 0 (w_end w)); [lia|auto].
  - intros e l He (ls' & El & Hl). rewrite Hn' in El. destruct (Nat.eqb_spec e (w_end w)) as [->|Hne].
    + injection El as <-. apply in_app_or in Hl as [Hl|[<-|[]]].
      * apply I3; auto. exists ls; auto.
      * cbn. split; auto. split; auto. eauto.
    + apply I3; auto. exists ls'; auto.
  - intros x rx Hcx Hdx Hrx.
    assert (Hold : D x -> exists l, node_at lists' (w_end x) l /\ ln_word l = x).
    { intros Hd. destruct (I4 x rx Hcx Hd Hrx) as (l & (ls' & El & Hl) & Hlw).
      exists l. split; auto. unfold node_at. rewrite Hn'. destruct (Nat.eqb_spec (w_end x) (w_end w)) as [E|E].
      - rewrite E, Els in El. injection El as <-. eexists. split; [reflexivity|]. apply in_or_app; auto.
      - eauto. }
    destruct Hdx as [Hd| ->]; [auto|].
    eexists. split.
    + unfold node_at. rewrite Hn', Nat.eqb_refl. eexists. split; [reflexivity|]. apply in_or_app. right. now left.
    + reflexivity.
Qed.

Lemma insert_all_words ws : forall D lat i r, words_inv D (l_lists lat) ->
  (forall w, In w ws -> cand_word bow cands n w /\ w_begin w = i) -> rpath bow cands n r i ->
  exists lat', insert_all view lat ws = (lat', None) /\ words_inv (fun x => D x \/ In x ws) (l_lists lat') /\
    l_eos lat' = l_eos lat.
Proof.
  induction ws as [|w ws IH]; intros D lat i r I Hws Hr; cbn [insert_all].
  - exists lat. split; auto. split; auto. eapply words_inv_ext; [|exact I]. cbn. tauto.
  - destruct (Hws w (or_introl eq_refl)) as (Hc & Hb).
    destruct (insert_words D lat w r I Hc) as (lat1 & E1 & I1 & O1); [now rewrite Hb|]. rewrite E1.
    destruct (IH _ lat1 i r I1) as (lat2 & E2 & I2 & O2); auto.
    { intros x Hx. apply Hws. now right. }
    exists lat2. split; auto. split; [|congruence]. eapply words_inv_ext; [|exact I2]. cbn. intros; intuition.
Qed.

Lemma build_from_total k : forall lat i, i + k = n -> words_inv (fun x => w_begin x < i) (l_lists lat) ->
  exists lat', build_from view bow cands lat i k = (lat', None) /\
    words_inv (fun x => w_begin x < n) (l_lists lat') /\ l_eos lat' = l_eos lat.
Proof.
  induction k as [|k IH]; intros lat i Hik I; cbn [build_from].
  - exists lat. replace i with n in I by lia. auto.
  - assert (Hstep : exists lat1, build_at view bow cands lat i = (lat1, None) /\
        words_inv (fun x => w_begin x < S i) (l_lists lat1) /\ l_eos lat1 = l_eos lat).
    { unfold build_at. destruct (bow_total i) as (b & Eb); [lia|]. rewrite Eb. destruct b.
      2:{ exists lat. split; auto. split; auto. eapply words_inv_ext; [|exact I].
          intros w r (_ & Hw & _) _ Hlt. destruct (Nat.eq_dec (w_begin w) i) as [Heq|]; [rewrite Heq in Hw; congruence|lia]. }
      pose proof I as (I1 & I2 & I3 & I4).
      unfold has_previous_node. destruct (get_lt (l_lists lat) i) as (ls & Els); [lia|]. rewrite Els. cbn [bind].
      apply get_ok in Els. destruct ls as [|l ls].
      - exists lat. split; auto. split; auto. eapply words_inv_ext; [|exact I].
        intros w r Hw Hr Hlt. destruct (Nat.eq_dec (w_begin w) i) as [Heq|]; [|lia]. exfalso.
        rewrite Heq in Hr. inversion Hr as [Ea E0|w' r' Hr' Hc' Ea E0]; subst.
        + rewrite <- E0, I2 in Els. discriminate.
        + destruct (I4 w' r' Hc') as (l & (ls & El & Hl) & _); auto.
          { apply cands_ok in Hc'. lia. }
          rewrite E0, Els in El. injection El as <-. contradiction.
      - assert (Hr : exists r, rpath bow cands n r i).
        { destruct i as [|i]; [exists []; constructor|].
          destruct (I3 (S i) l) as (A1 & A2 & (r & A3)); [lia|exists (l :: ls); split; auto; now left|].
          exists (ln_word l :: r). rewrite <- A1. now constructor. }
        destruct Hr as (r & Hr).
        pose proof (no_exn i r ltac:(lia) Eb Hr) as Hx.
        destruct (cands i) as [ws x] eqn:Ec. cbn [snd] in Hx. subst x.
        destruct (insert_all_words ws (fun x => w_begin x < i) lat i r I) as (lat1 & E1 & J1 & O1); auto.
        { intros w Hw. assert (Hb : w_begin w = i) by (apply cands_begin; now rewrite Ec).
          split; auto. split; [lia|]. rewrite Hb. split; auto. now rewrite Ec. }
        rewrite E1. exists lat1. split; auto. split; auto.
        eapply words_inv_ext; [|exact J1]. cbn. intros w rw (_ & _ & Hw) _ Hlt.
        destruct (Nat.eq_dec (w_begin w) i) as [Heq|]; [|left; lia].
        right. rewrite Heq, Ec in Hw. exact Hw. }
    destruct Hstep as (lat1 & E1 & J1 & O1). rewrite E1.
    destruct (IH lat1 (S i) ltac:(lia) J1) as (lat2 & E2 & J2 & O2). exists lat2. split; auto. split; auto. congruence.
Qed.

Lemma build_lattice_total lat : clean bosp lat ->
  exists lat', build_lattice view eosp bow cands lat n = (lat', None).
Proof.
  intros Hc. unfold build_lattice.
  assert (I : words_inv (fun x => w_begin x < 0) (l_lists (lat_resize eosp lat n))).
  { destruct (resize_shape bosp eosp n lat Hc) as ((A1 & A2 & A3 & A4) & _).
    split; auto. split; auto. split; [|intros; lia].
    intros e l He (ls & El & Hl). exfalso.
    destruct Hc as (Hs & k & Hk1 & Hk2). revert El.
    unfold lat_resize. destruct (_ <? _); cbn [lat_expand l_lists]; rewrite Hk1; destruct e; try lia; cbn;
      [rewrite <- repeat_app|]; intros El; apply nth_error_repeat in El; subst; contradiction. }
  destruct (build_from_total n _ 0 (eq_refl) I) as (lat1 & E1 & (J1 & _) & O1). rewrite E1.
  unfold connect_eos. rewrite O1. cbn [lat_resize l_eos ln_word].
  destruct (connect_node_total view (l_lists lat1) (eos_word eosp n)) as (tot & prev & EN).
  { unfold eos_word. destruct eosp as [[? ?] ?]. cbn. lia. }
  rewrite EN. cbn [bind]. eauto.
Qed.
End total.

(** Every dictionary word found that ends where a word may begin is a candidate. *)
Lemma lex_words_complete params it i l wid e lf r c : snd (lex_words params it i l) = None ->
  In (wid, e) l -> (e < length (it_bytes it) -> can_bow it e = Ok true) -> params wid = Ok (lf, r, c) ->
  In (WNode i e lf r c wid false true None) (fst (lex_words params it i l)).
Proof.
  induction l as [|[w0 e0] l IH]; intros Hx Hin Hb Hp; [contradiction|]. cbn [lex_words] in *.
  destruct Hin as [Heq|Hin].
  - injection Heq as -> ->.
    assert (Eb : (if e <? length (it_bytes it) then can_bow it e else Ok true) = Ok true).
    { destruct (Nat.ltb_spec e (length (it_bytes it))); auto. }
    rewrite Eb, Hp in *. cbn [bind] in *. unfold lex_node in *. destruct (to_int wid) as [wid'|] eqn:Ew; [|discriminate].
    apply to_int_ok in Ew as (-> & _). cbn [bind] in *. destruct (lex_words params it i l). cbn [fst]. left. reflexivity.
  - destruct (if e0 <? length (it_bytes it) then can_bow it e0 else Ok true) as [[|]|]; [|auto|discriminate].
    destruct ('(lf0, r0, c0) <- params w0;; lex_node lf0 r0 c0 w0); [|discriminate].
    destruct (lex_words params it i l). cbn [fst snd] in *. right. apply IH; auto.
Qed.

Lemma candidates_complete lookup params providers it i wid e lf r c :
  snd (candidates lookup params providers it i) = None ->
  In (wid, e) (fst (lookup (it_bytes it) i)) -> (e < length (it_bytes it) -> can_bow it e = Ok true) ->
  params wid = Ok (lf, r, c) ->
  In (WNode i e lf r c wid false true None) (fst (candidates lookup params providers it i)).
Proof.
  unfold candidates. destruct (lookup (it_bytes it) i) as [found x0]. cbn [fst]. intros Hx Hin Hb Hp.
  pose proof (lex_words_complete params it i found wid e lf r c) as HC.
  destruct (lex_words params it i found) as [ws x1]. cbn [fst snd] in HC.
  destruct x1 as [x|]; [discriminate|]. specialize (HC eq_refl Hin Hb Hp).
  destruct x0 as [x|]; [discriminate|].
  destruct (get_cats_at it i) as [cats|]; [|discriminate].
  destruct (if cat_mem NOOOVBOW cats then _ else _) as [os x2].
  destruct x2 as [x|]; [discriminate|].
  destruct ws as [|w ws]; [contradiction|]. cbn [app fst]. destruct HC as [HC|HC]; [left; auto|right; apply in_or_app; auto].
Qed.
