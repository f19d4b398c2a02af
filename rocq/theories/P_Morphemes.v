(** Surfaces of the morphemes of a tiling path; splitting. *)
From Coq Require Import List ZArith Lia Bool Arith.
From Verif Require Import Base Utf8 M_Builder M_InputText M_Lattice M_Oov M_Tokenizer M_Morphemes S_Text S_Lattice
  P_Builder P_InputText P_Accessors P_Oov P_Lattice P_Tokenizer P_Path P_Config P_History.
Import ListNotations.
Open Scope nat_scope.

Lemma slice_split {A} (l : list A) a b c : a <= b -> b <= c -> slice l a b ++ slice l b c = slice l a c.
Proof.
  intros H1 H2. unfold slice.
  destruct (le_lt_dec (length l) b) as [Hb|Hb].
  - rewrite (firstn_all2 (n := b)) by lia. rewrite (firstn_all2 (n := c)) by lia.
    rewrite (skipn_all2 (n := b)) by lia. now rewrite app_nil_r.
  - replace (firstn b l) with (firstn b (firstn c l)) by (rewrite firstn_firstn; f_equal; lia).
    replace (skipn a (firstn c l)) with (skipn a (firstn b (firstn c l) ++ skipn b (firstn c l))) by now rewrite firstn_skipn.
    rewrite skipn_app. f_equal. replace (a - length (firstn b (firstn c l))) with 0; [reflexivity|].
    rewrite firstn_length, firstn_length. lia.
Qed.

(** [tiles] without the condition that no step is empty. *)
Fixpoint covers (b : nat) (p : list step) (e : nat) : Prop :=
  match p with
  | [] => b = e
  | s :: r => s_begin s = b /\ s_begin s <= s_end s /\ covers (s_end s) r e
  end.

Lemma tiles_covers b p e : tiles b p e -> covers b p e.
Proof. revert b. induction p as [|s p IH]; intros b; cbn; auto. intros (H1 & H2 & H3). split; auto. split; [lia|auto]. Qed.

Lemma covers_le b p e : covers b p e -> b <= e.
Proof. revert b. induction p as [|s p IH]; intros b; cbn; [lia|]. intros (H1 & H2 & H3). apply IH in H3. lia. Qed.

Lemma covers_app b p q e : covers b (p ++ q) e <-> exists m, covers b p m /\ covers m q e.
Proof.
  revert b. induction p as [|s p IH]; intros b; cbn [app covers].
  - split; [eauto|]. now intros (m & -> & H).
  - rewrite IH. split.
    + intros (H1 & H2 & m & H3 & H4). eauto 6.
    + intros (m & (H1 & H2 & H3) & H4). eauto 6.
Qed.

Section surfaces.
Context {t orig : text} {m2o : list nat} {cats : list (list cat)} {it : input_text}.
Context (B : built t orig m2o cats it) (PM : position_map m2o (length t) (length orig)).
Notation n := (length (it_bytes it)).

Lemma original_index p : p <= n -> exists o, get_original_index it p = Ok o /\ o <= length orig.
Proof.
  intros Hp. destruct (char_pos_exists B p Hp) as (k & Hk).
  pose proof (off_char_pos B p k Hk) as Ho. unfold get_original_index, get. rewrite Ho.
  destruct PM as (Hl & H0 & Hn & Hm).
  assert (Hkt : k <= length t).
  { destruct Hk as [Hk|(-> & ->)]; [|lia]. destruct Hk. lia. }
  destruct (nth_error m2o k) as [o|] eqn:E; [|apply nth_error_None in E; lia].
  exists o. split; auto. apply (Hm k (length t)); auto.
Qed.

Lemma original_index_mono p q o o' : p <= q -> q <= n ->
  get_original_index it p = Ok o -> get_original_index it q = Ok o' -> o <= o'.
Proof.
  intros Hpq Hq Ep Eq. destruct (char_pos_exists B p ltac:(lia)) as (i & Hi). destruct (char_pos_exists B q Hq) as (j & Hj).
  pose proof (char_pos_mono B p q i j Hpq Hi Hj) as Hij.
  unfold get_original_index in *. rewrite get_ok in *. rewrite (off_char_pos B _ _ Hi) in Ep. rewrite (off_char_pos B _ _ Hj) in Eq.
  destruct PM as (_ & _ & _ & Hm). eapply Hm; eauto.
Qed.

Lemma original_index_ends : get_original_index it 0 = Ok 0 /\ get_original_index it n = Ok (length orig).
Proof.
  destruct PM as (Hl & H0 & Hn & Hm). unfold get_original_index. rewrite !get_ok.
  pose proof (off_start B 0 ltac:(lia)) as H. rewrite char_start_0 in H. rewrite H.
  pose proof (off_start B (length t) ltac:(lia)) as H'. rewrite (len_bytes B) in H'. rewrite H'. auto.
Qed.

Lemma ml_surface_spec p i w : nth_error p i = Some w -> w_begin w <= w_end w -> w_end w <= n ->
  exists b e, ml_begin (Morphemes (Some it) p) i = Ok b /\ ml_end (Morphemes (Some it) p) i = Ok e /\ b <= e <= length orig /\
    ml_surface (Morphemes (Some it) p) i = Ok (slice orig b e).
Proof.
  intros Hw H1 H2. destruct (original_index (w_begin w)) as (b & Eb & _); [lia|].
  destruct (original_index (w_end w) H2) as (e & Ee & Hle).
  exists b, e. unfold ml_surface, ml_begin, ml_end, ml_input. cbn [ml_text ml_path bind].
  assert (Hg : get p i = Ok w) by now apply get_ok. rewrite Hg. cbn [bind]. rewrite Eb, Ee. cbn [bind].
  rewrite (bt_orig B). split; auto. split; auto. split; [|reflexivity]. split; [|exact Hle].
  exact (original_index_mono _ _ _ _ H1 H2 Eb Ee).
Qed.

(** The surface of a node by its span. *)
Definition span_surface (w : wnode) : res text :=
  b <- get_original_index it (w_begin w) ;; e <- get_original_index it (w_end w) ;; Ok (slice orig b e).

Lemma ml_surface_span p i w : nth_error p i = Some w -> ml_surface (Morphemes (Some it) p) i = span_surface w.
Proof.
  intros Hw. unfold ml_surface, ml_begin, ml_end, ml_input, span_surface. cbn [ml_text ml_path bind].
  assert (Hg : get p i = Ok w) by now apply get_ok. rewrite Hg. cbn [bind].
  destruct (get_original_index it (w_begin w)); auto. cbn [bind]. destruct (get_original_index it (w_end w)); auto. cbn [bind].
  now rewrite (bt_orig B).
Qed.

Lemma mapM_seq_span p : forall pre, mapM (ml_surface (Morphemes (Some it) (pre ++ p))) (seq (length pre) (length p)) = mapM span_surface p.
Proof.
  induction p as [|w p IH]; intros pre; cbn [length seq mapM]; auto.
  rewrite (ml_surface_span (pre ++ w :: p) (length pre) w).
  2:{ rewrite nth_error_app2, Nat.sub_diag by lia. reflexivity. }
  specialize (IH (pre ++ [w])). rewrite <- app_assoc, app_length in IH. cbn [app length] in IH.
  replace (length pre + 1) with (S (length pre)) in IH by lia. now rewrite IH.
Qed.

Lemma covers_surfaces p : forall b, covers b (map to_step p) n ->
  exists ss o, mapM span_surface p = Ok ss /\ get_original_index it b = Ok o /\ concat ss = slice orig o (length orig).
Proof.
  induction p as [|w p IH]; intros b Hc; cbn [map covers to_step s_begin s_end] in Hc.
  - subst b. destruct original_index_ends as (_ & E). exists [], (length orig). cbn. split; auto. split; auto.
    unfold slice. rewrite skipn_all2; auto. rewrite firstn_length. lia.
  - destruct Hc as (Hb & Hbe & Hc). pose proof (covers_le _ _ _ Hc) as Hle.
    destruct (IH _ Hc) as (ss & o & Es & Eo & Hs).
    destruct (original_index b) as (ob & Eob & _); [lia|].
    exists (slice orig ob o :: ss), ob. cbn [mapM]. unfold span_surface at 1. rewrite Hb, Eob, Eo, Es. cbn [bind].
    split; auto. split; auto. cbn [concat]. rewrite Hs. apply slice_split.
    + apply (original_index_mono b (w_end w)); auto; lia.
    + destruct original_index_ends as (_ & E). apply (original_index_mono (w_end w) n); auto; lia.
Qed.

Lemma covers_str p : covers 0 (map to_step p) n -> ml_str (Morphemes (Some it) p) = Ok orig.
Proof.
  intros H. unfold ml_str, ml_iter. cbn [ml_path].
  pose proof (mapM_seq_span p []) as E. cbn [app length] in E. rewrite E.
  destruct (covers_surfaces p 0 H) as (ss & o & -> & Eo & Hs). cbn [bind].
  destruct original_index_ends as (E0 & _). rewrite E0 in Eo. injection Eo as <-. rewrite Hs.
  unfold slice. cbn. now rewrite firstn_all.
Qed.
End surfaces.

(** ** Splitting *)
Section split.
Variable lexinfo : Z -> res word_info.

Definition units (m : mode) (wi : word_info) : list Z := match m with ModeA => wi_a wi | _ => wi_b wi end.

(** The units of a word together are as long as the word. *)
Definition fits (m : mode) (w : wnode) : Prop :=
  forall wi, node_info lexinfo w = Ok wi -> 1 < length (units m wi) ->
    forall infos, mapM lexinfo (units m wi) = Ok infos -> w_begin w + list_sum (map wi_length infos) = w_end w.

Lemma split_nodes_covers wids : forall o ns, split_nodes lexinfo o wids = Ok ns ->
  exists infos, mapM lexinfo wids = Ok infos /\ covers o (map to_step ns) (o + list_sum (map wi_length infos)).
Proof.
  induction wids as [|wid wids IH]; intros o ns E; cbn [split_nodes] in E.
  - injection E as <-. exists []. split; auto. cbn. lia.
  - apply bind_ok in E as (nd & End & E). apply bind_ok in E as (wi & Ewi & E). apply bind_ok in E as (ns' & Ens & [= <-]).
    unfold lex_node in End. apply bind_ok in End as (wid' & Ew & [= <-]). apply to_int_ok in Ew as (-> & _).
    unfold node_info in Ewi. cbn in Ewi.
    destruct (IH _ _ Ens) as (infos & Ei & Hc). exists (wi :: infos). cbn [mapM]. rewrite Ewi, Ei. split; auto.
    cbn [map covers to_step set_range w_begin w_end s_begin s_end list_sum fold_right]. split; auto. split; [lia|].
    cbn [list_sum map fold_right] in *. unfold list_sum in *. now rewrite Nat.add_assoc.
Qed.

Lemma split_path_covers m p : forall b e p', m <> ModeC -> covers b (map to_step p) e -> Forall (fits m) p ->
  split_path lexinfo m p = Ok p' -> covers b (map to_step p') e.
Proof.
  intros b e p' Hm Hc Hf E.
  assert (E' : exists nss, mapM (split_one lexinfo m) p = Ok nss /\ p' = concat nss).
  { unfold split_path in E. destruct m; [| |congruence]; apply bind_ok in E as (nss & E1 & [= <-]); eauto. }
  clear E. destruct E' as (nss & E & ->). revert b nss Hc E. induction Hf as [|w p Hw Hf IH]; intros b nss Hc E; cbn [mapM] in E.
  - injection E as <-. exact Hc.
  - apply bind_ok in E as (ns & E1 & E). apply bind_ok in E as (nss' & E2 & [= <-]). cbn [concat]. rewrite map_app, covers_app.
    cbn [map covers to_step s_begin s_end] in Hc. destruct Hc as (Hb & Hbe & Hc).
    exists (w_end w). split; [|eapply IH; eauto].
    unfold split_one in E1. apply bind_ok in E1 as (wi & Ewi & E1). fold (units m wi) in E1.
    destruct (Nat.leb_spec (length (units m wi)) 1) as [Hl|Hl].
    + injection E1 as <-. cbn. auto.
    + destruct (split_nodes_covers _ _ _ E1) as (infos & Ei & Hcov).
      rewrite (Hw wi Ewi Hl infos Ei) in Hcov. now rewrite Hb in Hcov.
Qed.

Lemma split_units_eq m w wi : m <> ModeC -> node_info lexinfo w = Ok wi ->
  forall l i, get (ml_path l) i = Ok w ->
  ml_split lexinfo l m i = (ns <- split_one lexinfo m w ;; Ok (Morphemes (ml_text l) ns)).
Proof.
  intros Hm Hi l i Hg. unfold ml_split, ml_word_info, split_one. rewrite Hg. cbn [bind]. rewrite Hi. cbn [bind].
  fold (units m wi).
  assert (Hu : forall A (a b : A), match m with ModeC => a | _ => b end = b) by (intros; destruct m; congruence).
  rewrite Hu. destruct (length (units m wi)) as [|[|k]] eqn:El; cbn [Nat.eqb orb Nat.leb bind]; auto.
Qed.

Lemma split_one_ml m w l i : m <> ModeC -> get (ml_path l) i = Ok w ->
  ml_split lexinfo l m i = (ns <- split_one lexinfo m w ;; Ok (Morphemes (ml_text l) ns)).
Proof.
  intros Hm Hg. destruct (node_info lexinfo w) as [wi|e] eqn:Ei; [now apply split_units_eq with (wi := wi)|].
  unfold ml_split, ml_word_info, split_one. rewrite Hg. cbn [bind]. rewrite Ei. reflexivity.
Qed.

Lemma ml_split_all m it p : m <> ModeC -> forall pre,
  mapM (ml_split lexinfo (Morphemes it (pre ++ p)) m) (seq (length pre) (length p)) =
  (nss <- mapM (split_one lexinfo m) p ;; Ok (map (Morphemes it) nss)).
Proof.
  intros Hm. induction p as [|w p IH]; intros pre; cbn [length seq mapM]; auto.
  rewrite (split_one_ml m w) by (auto; cbn [ml_path]; rewrite get_ok, nth_error_app2, Nat.sub_diag by lia; reflexivity).
  specialize (IH (pre ++ [w])). rewrite <- app_assoc, app_length in IH. cbn [app length] in IH.
  replace (length pre + 1) with (S (length pre)) in IH by lia. rewrite IH.
  destruct (split_one lexinfo m w); cbn [bind ml_text]; auto. destruct (mapM (split_one lexinfo m) p); cbn [bind map]; auto.
Qed.
End split.
