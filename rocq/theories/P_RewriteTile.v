(** The two path rewriting plugins keep a tiling, and look only at the lattice up to the
    end of the text. *)
From Coq Require Import List ZArith Lia Bool Arith.
From Verif Require Import Base Utf8 M_Builder M_InputText M_Lattice M_NumericParser M_PathRewrite
  S_Text S_Lattice S_Rewrite P_InputText P_Accessors P_Tokenizer P_Path P_History P_Rewrite P_RewriteNum.
Import ListNotations.
Open Scope nat_scope.

Lemma splice_tiles path b e w first last a z : b < e -> e <= length path ->
  nth_error path b = Some first -> nth_error path (e - 1) = Some last ->
  w_begin w = w_begin first -> w_end w = w_end last ->
  tiles a (map to_step path) z -> tiles a (map to_step (splice path b e w)) z.
Proof.
  intros H1 H2 Nf Nl Wb We T. destruct (slice_split path b e ltac:(lia)) as (S1 & SL & _).
  apply (joined_tiles (fun _ _ _ => True) [] path (splice path b e w)); [|exact T].
  rewrite S1 at 1. unfold splice. apply joined_app; [apply joined_refl|].
  eapply joined_group; eauto using hd_slice, last_slice, joined_refl.
Qed.

Section tile.
Variable lexinfo : Z -> res word_info.

Lemma concatenate_tiles path b e norm path' z : e <= length path -> concatenate lexinfo path b e norm = Ok path' ->
  tiles 0 (map to_step path) z -> tiles 0 (map to_step path') z.
Proof.
  intros He E T. unfold concatenate in E. destruct (Nat.leb_spec e b); [discriminate|].
  apply bind_ok in E as (first & Ef & E). apply bind_ok in E as (last & El & E).
  apply bind_ok in E as (i0 & _ & E). apply bind_ok in E as (infos & _ & [= <-]).
  apply get_ok in Ef, El. eapply splice_tiles; eauto.
Qed.

Lemma concatenate_oov_tiles lat path b e pos path' z : lists_end z lat -> e <= length path -> concatenate_oov lexinfo lat path b e pos = Ok path' ->
  tiles 0 (map to_step path) z -> tiles 0 (map to_step path') z.
Proof.
  intros LE He E T. unfold concatenate_oov in E. destruct (Nat.leb_spec e b); [discriminate|].
  apply bind_ok in E as (first & Ef & E). apply bind_ok in E as (last & El & E). apply bind_ok in E as (m & Em & E).
  apply get_ok in Ef, El. pose proof (tiles_inside _ _ _ T) as F. rewrite Forall_forall in F.
  destruct (F last) as (_ & Hl); [eapply nth_error_In; eauto|].
  destruct (minimum_node_spec z lat (w_begin first) (w_end last) LE Hl) as (m' & Em' & H'). rewrite Em in Em'. injection Em' as <-.
  destruct m as [w|].
  - injection E as <-. destruct H' as (A & B & _). eapply splice_tiles; eauto.
  - apply bind_ok in E as (infos & _ & [= <-]). eapply splice_tiles; eauto.
Qed.

Lemma kata_end_le it path k : forall e e', kata_end it path e k = Ok e' -> e <= e' <= e + k.
Proof.
  induction k as [|k IH]; intros e e' E; cbn [kata_end] in E; [injection E as <-; lia|].
  apply bind_ok in E as (w & _ & E). apply bind_ok in E as (b & _ & E). destruct b; [apply IH in E; lia|injection E as <-; lia].
Qed.

Lemma kata_loop_tiles cfg it lat z : lists_end z lat -> forall f path i path', kata_loop lexinfo cfg it lat f path i = Ok path' ->
  tiles 0 (map to_step path) z -> tiles 0 (map to_step path') z.
Proof.
  intros LE. induction f as [|f IH]; intros path i path' E T; cbn [kata_loop] in E; [discriminate|].
  destruct (Nat.leb_spec (length path) i); [now injection E as <-|].
  apply bind_ok in E as (w & _ & E). apply bind_ok in E as (t & _ & E). destruct t; cbn [negb] in E; [|eapply IH; eauto].
  apply bind_ok in E as (b0 & _ & E). apply bind_ok in E as (e & Ee & E). apply kata_end_le in Ee. apply bind_ok in E as (b & _ & E).
  destruct (1 <? e - b); [|eapply IH; eauto]. apply bind_ok in E as (p1 & E1 & E).
  eapply IH; [exact E|]. eapply concatenate_oov_tiles; [exact LE| |exact E1|exact T]. lia.
Qed.

Lemma kata_loop_local cfg it l1 l2 z : lists_end z l1 -> same_upto z l1 l2 ->
  forall f path i, tiles 0 (map to_step path) z -> kata_loop lexinfo cfg it l1 f path i = kata_loop lexinfo cfg it l2 f path i.
Proof.
  intros LE SU. induction f as [|f IH]; intros path i T; cbn [kata_loop]; [reflexivity|].
  destruct (Nat.leb_spec (length path) i); [reflexivity|].
  destruct (get path i) as [w|]; cbn [bind]; [|reflexivity]. destruct (kata_trigger cfg it w) as [[|]|]; cbn [bind negb]; [|now apply IH|reflexivity].
  destruct (kata_begin it path i) as [b0|]; cbn [bind]; [|reflexivity].
  destruct (kata_end it path (S i) (length path - S i)) as [e|] eqn:Ee; cbn [bind]; [|reflexivity]. apply kata_end_le in Ee.
  destruct (skip_nobow it path b0 (e - b0)) as [b|]; cbn [bind]; [|reflexivity].
  destruct (1 <? e - b); [|now apply IH].
  assert (K : concatenate_oov lexinfo l1 path b e (jk_pos cfg) = concatenate_oov lexinfo l2 path b e (jk_pos cfg)).
  { unfold concatenate_oov. destruct (e <=? b); [reflexivity|].
    destruct (get path b) as [first|] eqn:Ef; cbn [bind]; [|reflexivity].
    destruct (get path (e - 1)) as [last|] eqn:El; cbn [bind]; [|reflexivity].
    apply get_ok in El. pose proof (tiles_inside _ _ _ T) as F. rewrite Forall_forall in F.
    destruct (F last) as (_ & Hl); [eapply nth_error_In; eauto|].
    unfold get_minimum_node, get_nodes. now rewrite (same_get z l1 l2 _ SU Hl). }
  rewrite <- K. destruct (concatenate_oov lexinfo l1 path b e (jk_pos cfg)) as [p1|] eqn:E1; cbn [bind]; [|reflexivity].
  apply IH. eapply concatenate_oov_tiles; [exact LE| |exact E1|exact T]. lia.
Qed.

Lemma jn_concat_tiles cfg path b e p path' z : e <= length path -> jn_concat lexinfo cfg path b e p = Ok path' ->
  tiles 0 (map to_step path) z -> tiles 0 (map to_step path') z.
Proof.
  intros He E T. unfold jn_concat in E. apply bind_ok in E as (first & _ & E). apply bind_ok in E as (info & _ & E).
  destruct (negb _); [now injection E as <-|]. destruct (jn_normalize cfg).
  - apply bind_ok in E as ((norm & p1) & _ & E). destruct (_ || _); [eapply concatenate_tiles; eauto|now injection E as <-].
  - destruct (1 <? e - b); [eapply concatenate_tiles; eauto|now injection E as <-].
Qed.

Lemma jn_step_tiles cfg it st st' z : jn_step lexinfo cfg it st = Ok st' ->
  tiles 0 (map to_step (js_path st)) z -> tiles 0 (map to_step (js_path st')) z.
Proof.
  intros E T. unfold jn_step in E. apply bind_ok in E as (w & Ew & E). apply get_ok_lt in Ew.
  apply bind_ok in E as (cs & _ & E). apply bind_ok in E as (info & _ & E).
  destruct (treated_as_digit _ _ _ _).
  - destruct (match js_begin st with Some b => _ | None => _ end) as [b p]. destruct (p_feed p (wi_norm info)) as [ok p1].
    destruct ok; [now injection E as <-|]. destruct (p_error p1); now injection E as <-.
  - destruct (js_begin st) as [b|]; [|now injection E as <-]. destruct (p_done (js_parser st)) as [ok p1]. destruct ok.
    + apply bind_ok in E as (q & E1 & [= <-]). cbn [js_path]. eapply jn_concat_tiles; [|exact E1|exact T]. lia.
    + apply bind_ok in E as (prev & _ & E). apply bind_ok in E as (pi & _ & E).
      destruct (trailing p1 (wi_norm pi)); [|now injection E as <-].
      apply bind_ok in E as (q & E1 & [= <-]). cbn [js_path]. eapply jn_concat_tiles; [|exact E1|exact T]. lia.
Qed.

Lemma jn_loop_tiles cfg it z f : forall st path', jn_loop lexinfo cfg it f st = Ok path' ->
  tiles 0 (map to_step (js_path st)) z -> tiles 0 (map to_step path') z.
Proof.
  induction f as [|f IH]; intros st path' E T; cbn [jn_loop] in E; [discriminate|].
  destruct (Nat.ltb_spec (js_next st) (length (js_path st))).
  - apply bind_ok in E as (st1 & E1 & E). eapply IH; eauto. eapply jn_step_tiles; eauto.
  - unfold jn_finish in E. destruct (js_begin st) as [b|]; [|now injection E as <-].
    destruct (p_done (js_parser st)) as [ok p1]. destruct ok; [eapply jn_concat_tiles; eauto|].
    apply bind_ok in E as (prev & _ & E). apply bind_ok in E as (pi & _ & E).
    destruct (trailing p1 (wi_norm pi)); [|now injection E as <-]. eapply jn_concat_tiles; [|exact E|exact T]. lia.
Qed.

(** What holds of the old words, the lattice words and the new words holds of the words of
    the new path. *)
Variable Q : wnode -> Prop.
Lemma splice_all path b e w : Forall Q path -> Q w -> Forall Q (splice path b e w).
Proof.
  intros F Hw. rewrite Forall_forall in *. intros x Hx. unfold splice in Hx. apply in_app_or in Hx as [Hx|[<-|Hx]]; auto.
  - apply F. rewrite <- (firstn_skipn b path). apply in_or_app. now left.
  - apply F. rewrite <- (firstn_skipn e path). apply in_or_app. now right.
Qed.

Lemma kata_loop_all cfg it lat z : lists_end z lat ->
  (forall b e w, b < e -> lattice_word lat b e w -> Q w) ->
  (forall b e wi, wi_a wi = [] -> wi_b wi = [] -> wi_pos wi = jk_pos cfg -> Q (set_oov (set_word_info (set_range blank_node b e) wi))) ->
  forall f path i path', kata_loop lexinfo cfg it lat f path i = Ok path' ->
  tiles 0 (map to_step path) z -> Forall Q path -> Forall Q path'.
Proof.
  intros LE QL QN. induction f as [|f IH]; intros path i path' E T F; cbn [kata_loop] in E; [discriminate|].
  destruct (Nat.leb_spec (length path) i); [now injection E as <-|].
  apply bind_ok in E as (w & _ & E). apply bind_ok in E as (t & _ & E). destruct t; cbn [negb] in E; [|eapply IH; eauto].
  apply bind_ok in E as (b0 & _ & E). apply bind_ok in E as (e & Ee & E). apply kata_end_le in Ee. apply bind_ok in E as (b & _ & E).
  destruct (1 <? e - b); [|eapply IH; eauto]. apply bind_ok in E as (p1 & E1 & E).
  eapply IH; [exact E|eapply concatenate_oov_tiles; [exact LE| |exact E1|exact T]; lia|].
  unfold concatenate_oov in E1. destruct (Nat.leb_spec e b); [discriminate|].
  apply bind_ok in E1 as (first & Ef & E1). apply bind_ok in E1 as (last & El & E1). apply bind_ok in E1 as (m & Em & E1).
  apply get_ok in Ef, El.
  assert (TS : tiles 0 (map to_step (splice path b e (set_range blank_node (w_begin first) (w_end last)))) z)
    by (eapply (splice_tiles path b e _ first last); eauto; lia).
  assert (SP : w_begin first < w_end last <= z).
  { apply tiles_inside in TS. rewrite Forall_forall in TS. apply (TS (set_range blank_node (w_begin first) (w_end last))).
    unfold splice. apply in_or_app. right. now left. }
  destruct (minimum_node_spec z lat (w_begin first) (w_end last) LE (proj2 SP)) as (m' & Em' & H'). rewrite Em in Em'. injection Em' as <-.
  destruct m as [v|].
  - injection E1 as <-. destruct H' as (_ & _ & Hl & _). apply splice_all; [exact F|]. eapply QL; [|exact Hl]. apply SP.
  - apply bind_ok in E1 as (infos & _ & [= <-]). apply splice_all; auto.
Qed.

Lemma jn_loop_all cfg it : (forall b e wi, wi_a wi = [] -> wi_b wi = [] -> wi_pos wi = jn_pos cfg -> Q (set_word_info (set_range blank_node b e) wi)) ->
  forall f st path', jn_loop lexinfo cfg it f st = Ok path' -> Forall Q (js_path st) -> Forall Q path'.
Proof.
  intros QN.
  assert (KC : forall path b e p path', jn_concat lexinfo cfg path b e p = Ok path' -> Forall Q path -> Forall Q path').
  { intros path b e p path' E F.
    unfold jn_concat in E. apply bind_ok in E as (first & Hf & E). apply bind_ok in E as (info & Hi & E).
    destruct (wi_pos info =? jn_pos cfg)%Z eqn:EP; cbn [negb] in E; [|now injection E as <-]. apply Z.eqb_eq in EP.
    assert (KK : forall norm, concatenate lexinfo path b e norm = Ok path' -> Forall Q path').
    { intros norm E1. unfold concatenate in E1. destruct (e <=? b); [discriminate|].
      apply bind_ok in E1 as (first' & Hf' & E1). rewrite Hf in Hf'. injection Hf' as <-. apply bind_ok in E1 as (last & _ & E1).
      apply bind_ok in E1 as (i0 & Hi0 & E1). rewrite Hi in Hi0. injection Hi0 as <-. apply bind_ok in E1 as (infos & _ & [= <-]). apply splice_all; auto. }
    destruct (jn_normalize cfg).
    - apply bind_ok in E as ((norm & p1) & _ & E). destruct (_ || _); [eauto|now injection E as <-].
    - destruct (1 <? e - b); [eauto|now injection E as <-]. }
  induction f as [|f IH]; intros st path' E F; cbn [jn_loop] in E; [discriminate|].
  destruct (js_next st <? length (js_path st)).
  - apply bind_ok in E as (st1 & E1 & E). eapply IH; [exact E|]. clear IH E.
    unfold jn_step in E1. apply bind_ok in E1 as (w & Ew & E1).
    apply bind_ok in E1 as (cs & _ & E1). apply bind_ok in E1 as (info & _ & E1).
    destruct (treated_as_digit _ _ _ _).
    + destruct (match js_begin st with Some b => _ | None => _ end) as [b p]. destruct (p_feed p (wi_norm info)) as [ok p1].
      destruct ok; [now injection E1 as <-|]. destruct (p_error p1); now injection E1 as <-.
    + destruct (js_begin st) as [b|]; [|now injection E1 as <-]. destruct (p_done (js_parser st)) as [ok p1]. destruct ok.
      * apply bind_ok in E1 as (q & E2 & [= <-]). cbn [js_path]. eapply KC; eauto.
      * apply bind_ok in E1 as (prev & _ & E1). apply bind_ok in E1 as (pi & _ & E1).
        destruct (trailing p1 (wi_norm pi)); [|now injection E1 as <-].
        apply bind_ok in E1 as (q & E2 & [= <-]). cbn [js_path]. eapply KC; eauto.
  - unfold jn_finish in E. destruct (js_begin st) as [b|]; [|now injection E as <-].
    destruct (p_done (js_parser st)) as [ok p1]. destruct ok; [eapply KC; eauto|].
    apply bind_ok in E as (prev & _ & E). apply bind_ok in E as (pi & _ & E).
    destruct (trailing p1 (wi_norm pi)); [|now injection E as <-]. eapply KC; eauto.
Qed.

Lemma rewriter_good r : local_rewrite (rewrite_with lexinfo r) /\ tiling_rewrite (rewrite_with lexinfo r).
Proof.
  split.
  - intros it p l1 l2 LE SU T. destruct r as [c|c]; cbn [rewrite_with]; [|reflexivity]. now apply (kata_loop_local c it l1 l2 _ LE SU).
  - intros it p lat p' LE T E. destruct r as [c|c]; cbn [rewrite_with] in E.
    + eapply kata_loop_tiles; eauto.
    + apply (jn_loop_tiles c it _ _ _ _ E). exact T.
Qed.
End tile.
