(** The state of the process through any history of actions. *)
From Coq Require Import List ZArith Lia Bool Arith.
From Verif Require Import Base M_Lattice M_Tokenizer M_Bytes M_DicReader M_LexiconSet M_Close S_Close.
Import ListNotations.
Open Scope Z_scope.

Lemma key_eqb_eq x y : key_eqb x y = true <-> x = y.
Proof.
  unfold key_eqb. rewrite andb_true_iff, Nat.eqb_eq, Z.eqb_eq. destruct x, y; cbn [fst snd]. split; [intros [-> ->]; reflexivity|intros [= -> ->]; auto].
Qed.
Lemma key_eqb_refl x : key_eqb x x = true.
Proof. now apply key_eqb_eq. Qed.

Lemma nth_upd {A} (l : list A) i f j : nth_error (upd l i f) j = if Nat.eqb j i then option_map f (nth_error l i) else nth_error l j.
Proof.
  unfold upd. destruct (nth_error l i) as [a|] eqn:E.
  - assert (i < length l)%nat by (apply nth_error_Some; congruence).
    destruct (Nat.eqb_spec j i) as [->|N].
    + rewrite nth_error_app2; rewrite firstn_length_le by lia; [|lia]. now rewrite Nat.sub_diag.
    + destruct (Nat.lt_ge_cases j i).
      * rewrite nth_error_app1 by (rewrite firstn_length_le; lia). rewrite <- (firstn_skipn i l) at 2. rewrite nth_error_app1 by (rewrite firstn_length_le; lia). reflexivity.
      * rewrite nth_error_app2; rewrite firstn_length_le by lia; [|lia]. replace (j - i)%nat with (S (j - S i)) by lia. cbn [nth_error].
        rewrite <- (firstn_skipn (S i) l) at 2. rewrite nth_error_app2; rewrite firstn_length_le by lia; [reflexivity|lia].
  - destruct (Nat.eqb_spec j i) as [->|N]; [exact E|reflexivity].
Qed.
Lemma length_upd {A} (l : list A) i f : length (upd l i f) = length l.
Proof.
  unfold upd. destruct (nth_error l i) as [a|] eqn:E; [|reflexivity].
  assert (i < length l)%nat by (apply nth_error_Some; congruence).
  rewrite app_length, firstn_length_le by lia. cbn [length]. rewrite skipn_length. lia.
Qed.

Lemma in_use_iff p d : in_use p d = true <-> exists h, nth_error (ps_objects p) h = Some (Some d).
Proof.
  unfold in_use. rewrite existsb_exists. split.
  - intros ([d'|] & I & E); [|discriminate]. apply Nat.eqb_eq in E as ->. now apply In_nth_error.
  - intros (h & E). exists (Some d). split; [eapply nth_error_In; eauto|apply Nat.eqb_refl].
Qed.
Lemma in_cache_iff p d : in_cache p d = true <-> exists w wi, In ((d, w), wi) (ps_cache p).
Proof.
  unfold in_cache. rewrite existsb_exists. split.
  - intros (((d', w) & wi) & I & E). cbn [fst] in E. apply Nat.eqb_eq in E as ->. eauto.
  - intros (w & wi & I). exists ((d, w), wi). split; [exact I|]. cbn [fst]. apply Nat.eqb_refl.
Qed.

(** ** The invariant *)
Section inv.
Variable limit : nat.

Record dict_ok (p : process) (d : nat) (D : dictobj) : Prop := {
  ok_one : length (do_binaries D) = length (ls_lexicons (do_lexicon D));
  ok_some : (0 < length (do_binaries D))%nat;
  (* before the first close *)
  ok_parts : do_parts D = true -> forall b x, nth_error (do_binaries D) b = Some x -> x = Binary true true;
  (* after it *)
  ok_first : do_parts D = false -> exists o, nth_error (do_binaries D) 0 = Some (Binary false o);
  ok_closed : forall b x, nth_error (do_binaries D) b = Some x -> bn_open x = false -> do_parts D = false /\ in_use p d = false /\ in_cache p d = false
}.
Record inv (p : process) : Prop := {
  inv_dict : forall d D, nth_error (ps_dicts p) d = Some D -> dict_ok p d D;
  inv_obj : forall h d, nth_error (ps_objects p) h = Some (Some d) -> (d < length (ps_dicts p))%nat;
  inv_key : forall d w wi, In ((d, w), wi) (ps_cache p) -> exists D, nth_error (ps_dicts p) d = Some D /\ ls_word_info limit (do_lexicon D) w = Ok wi;
  inv_size : (length (ps_cache p) <= CACHE_SIZE)%nat;
  inv_nodup : NoDup (map fst (ps_cache p))
}.

Lemma inv_started : inv started.
Proof.
  split; cbn [ps_dicts ps_objects ps_cache started].
  - intros [|d] D H; discriminate H.
  - intros [|h] d H; discriminate H.
  - intros d w wi [].
  - cbn [length]. lia.
  - constructor.
Qed.

(** Every map of a Dictionary in use is open *)
Lemma open_of p d D b x : inv p -> nth_error (ps_dicts p) d = Some D -> nth_error (do_binaries D) b = Some x -> in_use p d = true -> bn_open x = true.
Proof.
  intros I E Eb U. destruct (bn_open x) eqn:O; [reflexivity|]. pose proof (ok_closed _ _ _ (inv_dict _ I _ _ E) _ _ Eb O) as (_ & N & _). congruence.
Qed.
Lemma read_ok p d D w : inv p -> nth_error (ps_dicts p) d = Some D -> in_use p d = true -> read_word_info limit D w = ls_word_info limit (do_lexicon D) w.
Proof.
  intros I E U. unfold read_word_info. destruct (nth_error (do_binaries D) _) as [x|] eqn:Eb; [|reflexivity]. now rewrite (open_of _ _ _ _ _ I E Eb U).
Qed.

(** One look-up *)
Definition cache_of (p : process) (c : shared_cache) : process := Process (ps_dicts p) (ps_objects p) c.

Lemma nodup_touch (l : list (nat * Z)) k : NoDup l -> NoDup (touch l k).
Proof.
  intros N. unfold touch. constructor.
  - intros H. apply filter_In in H as [_ H]. now rewrite key_eqb_refl in H.
  - now apply NoDup_filter.
Qed.
Lemma map_filter_key (c : shared_cache) k : map fst (filter (fun y => negb (key_eqb (fst y) k)) c) = filter (fun x => negb (key_eqb x k)) (map fst c).
Proof. induction c as [|[a w] c IH]; [reflexivity|]. cbn [filter map fst]. destruct (negb (key_eqb a k)); cbn [map fst]; now rewrite IH. Qed.
Lemma filter_absent (l : list (nat * Z)) k : ~ In k l -> filter (fun x => negb (key_eqb x k)) l = l.
Proof.
  induction l as [|a l IH]; [reflexivity|]. intros N. cbn [filter]. destruct (key_eqb a k) eqn:E.
  - apply key_eqb_eq in E as ->. exfalso. apply N. now left.
  - cbn [negb]. f_equal. apply IH. intros H. apply N. now right.
Qed.
Lemma length_filter_in (l : list (nat * Z)) k : NoDup l -> In k l -> length l = S (length (filter (fun x => negb (key_eqb x k)) l)).
Proof.
  induction l as [|a l IH]; [intros _ []|]. intros N [-> |H].
  - cbn [filter]. rewrite key_eqb_refl. cbn [negb length]. inversion N. now rewrite filter_absent.
  - inversion N as [|? ? Na Nl]; subst. cbn [filter]. destruct (key_eqb a k) eqn:E.
    + apply key_eqb_eq in E as ->. contradiction.
    + cbn [negb length]. f_equal. now apply IH.
Qed.

(** The keys after a look-up are a cut of the keys with this one moved to the front *)
Lemma find_key (c : shared_cache) k : match find (fun e => key_eqb (fst e) k) c with Some e => In e c /\ fst e = k | None => ~ In k (map fst c) end.
Proof.
  destruct (find _ c) as [e|] eqn:F.
  - apply find_some in F as [H E]. apply key_eqb_eq in E. auto.
  - intros H. apply in_map_iff in H as (e & E & H). pose proof (find_none _ _ F _ H) as N. cbn beta in N. rewrite E, key_eqb_refl in N. discriminate.
Qed.

Record looked (p : process) (d : nat) (w : Z) (p' : process) (r : res word_info) : Prop := {
  lk_dicts : ps_dicts p' = ps_dicts p;
  lk_objects : ps_objects p' = ps_objects p;
  lk_inv : inv p';
  lk_keys : map fst (ps_cache p') = match r with Ok _ => firstn CACHE_SIZE (touch (map fst (ps_cache p)) (d, w)) | Err _ => map fst (ps_cache p) end
}.
Lemma shared_word_info_ok p d D w : inv p -> nth_error (ps_dicts p) d = Some D -> in_use p d = true ->
  exists p', shared_word_info limit p d w = (p', ls_word_info limit (do_lexicon D) w) /\ looked p d w p' (ls_word_info limit (do_lexicon D) w).
Proof.
  intros I E U. unfold shared_word_info. pose proof (find_key (ps_cache p) (d, w)) as F.
  assert (DK : forall c, (forall d', in_cache (cache_of p c) d' = true -> d' = d \/ in_cache p d' = true) ->
     forall d' D', nth_error (ps_dicts p) d' = Some D' -> dict_ok (cache_of p c) d' D').
  { intros c Hc d' D' E'. destruct (inv_dict _ I _ _ E') as [H1 H2 H3 H4 H5]. split; auto.
    intros b x Eb O. destruct (H5 _ _ Eb O) as (P1 & P2 & P3). split; [exact P1|]. split; [exact P2|].
    destruct (in_cache (cache_of p c) d') eqn:Q; [|reflexivity]. destruct (Hc _ Q) as [-> |]; congruence. }
  destruct (find _ (ps_cache p)) as [[k wi]|] eqn:Ef.
  - destruct F as [Hin Ek]. cbn [fst] in Ek. subst k. destruct (inv_key _ I _ _ _ Hin) as (D' & E' & Ew). assert (D' = D) as -> by congruence. rewrite Ew.
    eexists. split; [reflexivity|]. cbn [snd].
    assert (KK : map fst (((d, w), wi) :: filter (fun y => negb (key_eqb (fst y) (d, w))) (ps_cache p)) = touch (map fst (ps_cache p)) (d, w)).
    { cbn [map fst]. unfold touch. f_equal. apply map_filter_key. }
    assert (LL : (length (touch (map fst (ps_cache p)) (d, w)) <= CACHE_SIZE)%nat).
    { unfold touch. cbn [length]. rewrite <- length_filter_in; [|apply (inv_nodup _ I)|apply in_map_iff; exists ((d, w), wi); auto]. rewrite map_length. apply (inv_size _ I). }
    split; try reflexivity.
    + split; cbn [ps_dicts ps_objects ps_cache].
      * apply (DK (((d, w), wi) :: filter (fun y => negb (key_eqb (fst y) (d, w))) (ps_cache p))). intros d' H. rewrite !in_cache_iff in *. destruct H as (w' & wi' & [[= <- _ _]|H]); [now left|right].
        apply filter_In in H as [H _]. eauto.
      * apply (inv_obj _ I).
      * intros d' w' wi' [[= <- <- <-]|H]; [eauto|]. apply filter_In in H as [H _]. eapply inv_key; eauto.
      * change (length (((d, w), wi) :: filter (fun y => negb (key_eqb (fst y) (d, w))) (ps_cache p)) <= CACHE_SIZE)%nat. rewrite <- (map_length fst), KK. exact LL.
      * rewrite KK. apply nodup_touch, (inv_nodup _ I).
    + cbn [ps_cache]. rewrite KK. symmetry. apply firstn_all2. exact LL.
  - rewrite E, (read_ok _ _ _ _ I E U). destruct (ls_word_info limit (do_lexicon D) w) as [wi|e] eqn:Ew.
    + eexists. split; [reflexivity|].
      assert (KK : map fst (firstn CACHE_SIZE (((d, w), wi) :: ps_cache p)) = firstn CACHE_SIZE (touch (map fst (ps_cache p)) (d, w))).
      { rewrite <- firstn_map. cbn [map fst]. unfold touch. now rewrite filter_absent. }
      assert (IN : forall e, In e (firstn CACHE_SIZE (((d, w), wi) :: ps_cache p)) -> e = ((d, w), wi) \/ In e (ps_cache p)).
      { intros e H. assert (H' : In e (((d, w), wi) :: ps_cache p)) by (rewrite <- (firstn_skipn CACHE_SIZE); apply in_or_app; now left). destruct H'; auto. }
      split; try reflexivity.
      * split; cbn [ps_dicts ps_objects ps_cache].
        -- apply (DK (firstn CACHE_SIZE (((d, w), wi) :: ps_cache p))). intros d' H. rewrite !in_cache_iff in *. destruct H as (w' & wi' & H). apply IN in H as [[= -> _ _]|H]; [now left|right]. eauto.
        -- apply (inv_obj _ I).
        -- intros d' w' wi' H. apply IN in H as [[= -> -> ->]|H]; [eauto|]. eapply inv_key; eauto.
        -- rewrite firstn_length. lia.
        -- rewrite KK.
           assert (NT : NoDup (touch (map fst (ps_cache p)) (d, w))) by (apply nodup_touch, (inv_nodup _ I)).
           rewrite <- (firstn_skipn CACHE_SIZE) in NT. revert NT. generalize (firstn CACHE_SIZE (touch (map fst (ps_cache p)) (d, w))) as l1, (skipn CACHE_SIZE (touch (map fst (ps_cache p)) (d, w))) as l2.
           induction l1 as [|a l1 IH]; intros l2 N; [constructor|]. inversion N as [|? ? Na Nl]; subst. constructor; [intros H; apply Na; apply in_or_app; now left|eauto].
      * exact KK.
    + exists p. split; [reflexivity|]. split; auto.
Qed.

Definition good (s : lexset) (w : Z) : bool := match ls_word_info limit s w with Ok _ => true | Err _ => false end.
(** Several *)
Definition touches (l : list (nat * Z)) (ks : list (nat * Z)) : list (nat * Z) := fold_left (fun l k => firstn CACHE_SIZE (touch l k)) ks l.
Lemma shared_word_infos_ok d D wids : forall p, inv p -> nth_error (ps_dicts p) d = Some D -> in_use p d = true ->
  exists p', shared_word_infos limit p d wids = (p', mapM (ls_word_info limit (do_lexicon D)) wids) /\
    ps_dicts p' = ps_dicts p /\ ps_objects p' = ps_objects p /\ inv p' /\
    map fst (ps_cache p') = touches (map fst (ps_cache p)) (map (pair d) (good_prefix limit (do_lexicon D) wids)).
Proof.
  induction wids as [|w r IH]; intros p I E U; cbn [shared_word_infos mapM good_prefix].
  { exists p. auto. }
  destruct (shared_word_info_ok _ _ _ w I E U) as (p1 & -> & [L1 L2 L3 L4]).
  destruct (ls_word_info limit (do_lexicon D) w) as [wi|e] eqn:Ew; cbn [bind].
  - destruct (IH p1 L3) as (p2 & -> & M1 & M2 & M3 & M4).
    { now rewrite L1. } { unfold in_use in *. now rewrite L2. }
    exists p2. split; [destruct (mapM _ r); reflexivity|]. split; [congruence|]. split; [congruence|]. split; [exact M3|].
    rewrite M4, L4. reflexivity.
  - exists p1. split; [reflexivity|]. split; [exact L1|]. split; [exact L2|]. split; [exact L3|]. exact L4.
Qed.

End inv.

(** ** Closing *)
Section closing.
Variable limit : nat.
Lemma seq_nat_S a n : seq a (S n) = a :: seq (S a) n.
Proof. reflexivity. Qed.

(** What [close_binaries] leaves alone *)
Lemma in_use_upd p d f d' : in_use (upd_dict p d f) d' = in_use p d'.
Proof. reflexivity. Qed.
Lemma in_cache_upd p d f d' : in_cache (upd_dict p d f) d' = in_cache p d'.
Proof. reflexivity. Qed.
Lemma dict_upd p d f d' : nth_error (ps_dicts (upd_dict p d f)) d' = if Nat.eqb d' d then option_map f (nth_error (ps_dicts p) d) else nth_error (ps_dicts p) d'.
Proof. apply nth_upd. Qed.
Lemma dict_upd_binary p d D b x : nth_error (ps_dicts p) d = Some D ->
  nth_error (ps_dicts (upd_binary p d b x)) d = Some (DictObj (do_lexicon D) (do_parts D) (upd (do_binaries D) b (fun _ => x))).
Proof. intros E. unfold upd_binary. rewrite dict_upd, Nat.eqb_refl, E. reflexivity. Qed.
Lemma viewed_parts p d D b o : nth_error (ps_dicts p) d = Some D -> (b < length (do_binaries D))%nat -> do_parts D = false ->
  viewed (upd_binary p d b (Binary false o)) d b = in_use p d || in_cache p d.
Proof.
  intros E L P. unfold viewed. rewrite (dict_upd_binary _ _ _ _ _ E). cbn [do_binaries do_parts]. rewrite nth_upd, Nat.eqb_refl.
  destruct (nth_error (do_binaries D) b) as [x|] eqn:Eb; [|apply nth_error_None in Eb; lia]. cbn [option_map bn_parts]. rewrite P. reflexivity.
Qed.

(** One that is neither in use nor in the cache is closed in full *)
Lemma close_free d n : forall b p D, nth_error (ps_dicts p) d = Some D -> do_parts D = false -> in_use p d = false -> in_cache p d = false ->
  (b + n = length (do_binaries D))%nat -> (forall i, (b <= i < b + n)%nat -> exists o, nth_error (do_binaries D) i = Some (Binary true o)) ->
  (forall i, (i < b)%nat -> nth_error (do_binaries D) i = Some (Binary false false)) ->
  exists p' D', close_binaries p d (seq b n) = (p', Ok tt) /\ nth_error (ps_dicts p') d = Some D' /\ do_lexicon D' = do_lexicon D /\ do_parts D' = false /\
    length (do_binaries D') = length (do_binaries D) /\ (forall i, (i < length (do_binaries D))%nat -> nth_error (do_binaries D') i = Some (Binary false false)) /\
    (forall d', d' <> d -> nth_error (ps_dicts p') d' = nth_error (ps_dicts p) d') /\ length (ps_dicts p') = length (ps_dicts p) /\ ps_objects p' = ps_objects p /\ ps_cache p' = ps_cache p.
Proof.
  induction n as [|n IH]; intros b p D E P U C L H1 H2.
  - exists p, D. cbn [seq close_binaries]. repeat split; auto. intros i Hi. apply H2. lia.
  - rewrite seq_nat_S. cbn [close_binaries]. rewrite E. destruct (H1 b ltac:(lia)) as (o & Eb). rewrite Eb. cbn [bn_parts bn_open].
    rewrite (viewed_parts p d D b o E ltac:(lia) P), U, C. cbn [orb].
    pose proof (dict_upd_binary _ _ _ b (Binary false o) E) as E1. set (p1 := upd_binary p d b (Binary false o)) in *.
    pose proof (dict_upd_binary _ _ _ b (Binary false false) E1) as E2. set (p2 := upd_binary p1 d b (Binary false false)) in *.
    assert (NB : forall i, nth_error (upd (upd (do_binaries D) b (fun _ => Binary false o)) b (fun _ => Binary false false)) i =
       if Nat.eqb i b then Some (Binary false false) else nth_error (do_binaries D) i).
    { intros i. rewrite !nth_upd. destruct (Nat.eqb_spec i b); [|reflexivity]. rewrite Nat.eqb_refl, Eb. reflexivity. }
    destruct (IH (S b) p2 _ E2) as (p' & D' & HH); cbn [do_lexicon do_parts do_binaries] in *.
    + exact P. + exact U. + exact C.
    + rewrite !length_upd. lia.
    + intros i Hi. rewrite NB. destruct (Nat.eqb_spec i b); [lia|]. apply H1. lia.
    + intros i Hi. rewrite NB. destruct (Nat.eqb_spec i b); [reflexivity|]. apply H2. lia.
    + exists p', D'. rewrite !length_upd in HH. destruct HH as (A1 & A2 & A3 & A4 & A5 & A6 & A7 & A8 & A9 & A10). repeat split; auto.
      * intros d' N. rewrite A7 by exact N. unfold p2, p1, upd_binary. rewrite !dict_upd. destruct (Nat.eqb_spec d' d); [contradiction|reflexivity].
      * rewrite A8. unfold p2, p1, upd_binary, upd_dict. cbn [ps_dicts]. now rewrite !length_upd.
Qed.

Record closed_as (p : process) (d : nat) (D : dictobj) (p' : process) (D' : dictobj) (r : res unit) : Prop := {
  ca_dict : nth_error (ps_dicts p') d = Some D';
  ca_lex : do_lexicon D' = do_lexicon D;
  ca_parts : do_parts D' = false;
  ca_len : length (do_binaries D') = length (do_binaries D);
  ca_others : forall d', d' <> d -> nth_error (ps_dicts p') d' = nth_error (ps_dicts p) d';
  ca_count : length (ps_dicts p') = length (ps_dicts p);
  ca_objects : ps_objects p' = ps_objects p;
  ca_cache : ps_cache p' = ps_cache p;
  ca_res : match r with
           | Ok _ => do_parts D = true /\ in_use p d = false /\ in_cache p d = false /\ forall b x, nth_error (do_binaries D') b = Some x -> x = Binary false false
           | Err EBuffer => do_parts D = true /\ in_use p d || in_cache p d = true /\ (forall b x, nth_error (do_binaries D') b = Some x -> bn_open x = true) /\ nth_error (do_binaries D') 0 = Some (Binary false true)
           | Err e => e = EAttribute /\ do_parts D = false /\ D' = D
           end
}.
Lemma close_dict_ok p d D : inv limit p -> nth_error (ps_dicts p) d = Some D ->
  exists p' D' r, close_dict p d = (p', r) /\ closed_as p d D p' D' r.
Proof.
  intros I E. destruct (inv_dict _ _ I _ _ E) as [L1 L2 P1 P2 CL]. unfold close_dict. rewrite E.
  pose proof (dict_upd p d (fun D => DictObj (do_lexicon D) false (do_binaries D)) d) as E1. rewrite Nat.eqb_refl, E in E1. cbn [option_map] in E1.
  assert (E1o : forall d', d' <> d -> nth_error (ps_dicts (upd_dict p d (fun D => DictObj (do_lexicon D) false (do_binaries D)))) d' = nth_error (ps_dicts p) d').
  { intros d' N. rewrite dict_upd. destruct (Nat.eqb_spec d' d); [contradiction|reflexivity]. }
  assert (E1l : length (ps_dicts (upd_dict p d (fun D => DictObj (do_lexicon D) false (do_binaries D)))) = length (ps_dicts p)) by (cbn [upd_dict ps_dicts]; apply length_upd).
  pose proof (in_use_upd p d (fun D => DictObj (do_lexicon D) false (do_binaries D)) d) as IU. pose proof (in_cache_upd p d (fun D => DictObj (do_lexicon D) false (do_binaries D)) d) as IC.
  assert (EO : ps_objects (upd_dict p d (fun D => DictObj (do_lexicon D) false (do_binaries D))) = ps_objects p) by reflexivity.
  assert (EC : ps_cache (upd_dict p d (fun D => DictObj (do_lexicon D) false (do_binaries D))) = ps_cache p) by reflexivity.
  set (p1 := upd_dict p d (fun D => DictObj (do_lexicon D) false (do_binaries D))) in *. clearbody p1.
  destruct (do_parts D) eqn:EP.
  - specialize (P1 eq_refl). destruct (in_use p d || in_cache p d) eqn:V.
    + destruct (length (do_binaries D)) as [|n] eqn:EL; [lia|]. rewrite seq_nat_S. cbn [close_binaries]. rewrite E1. cbn [do_binaries].
      destruct (nth_error (do_binaries D) 0) as [x|] eqn:E0; [|apply nth_error_None in E0; lia]. rewrite (P1 _ _ E0). cbn [bn_parts bn_open].
      rewrite (viewed_parts _ _ _ _ _ E1); [|cbn [do_binaries]; lia|reflexivity]. rewrite IU, IC, V.
      eexists _, _, _. split; [reflexivity|]. pose proof (dict_upd_binary _ _ _ 0%nat (Binary false true) E1) as E2. cbn [do_lexicon do_parts do_binaries] in E2. split.
      * exact E2. * reflexivity. * reflexivity. * cbn [do_binaries]. rewrite length_upd. exact eq_refl.
      * intros d' N. unfold upd_binary. rewrite dict_upd. destruct (Nat.eqb_spec d' d); [contradiction|auto].
      * unfold upd_binary, upd_dict. cbn [ps_dicts]. rewrite length_upd. exact E1l.
      * exact EO. * exact EC.
      * split; [exact EP|]. split; [exact V|]. cbn [do_binaries]. split.
        -- intros b y. rewrite nth_upd. destruct (Nat.eqb b 0); [rewrite E0; cbn [option_map]; intros [= <-]; reflexivity|]. intros H. now rewrite (P1 _ _ H).
        -- rewrite nth_upd, Nat.eqb_refl, E0. reflexivity.
    + apply orb_false_iff in V as [V1 V2].
      destruct (close_free d (length (do_binaries D)) 0 p1 _ E1) as (p' & D' & A1 & A2 & A3 & A4 & A5 & A6 & A7 & A8 & A9 & A10); cbn [do_lexicon do_parts do_binaries] in *.
      * reflexivity. * congruence. * congruence. * lia.
      * intros i Hi. destruct (nth_error (do_binaries D) i) as [x|] eqn:Ei; [|apply nth_error_None in Ei; lia]. rewrite (P1 _ _ Ei). eauto.
      * intros i Hi. lia.
      * exists p', D', (Ok tt). split; [exact A1|]. split; auto; try congruence.
        -- intros d' N. rewrite A7 by exact N. auto.
        -- split; [exact EP|]. split; [exact V1|]. split; [exact V2|]. intros b x H. assert (b < length (do_binaries D'))%nat by (apply nth_error_Some; congruence).
           rewrite A6 in H by lia. congruence.
  - destruct (P2 eq_refl) as (o & E0). destruct (length (do_binaries D)) as [|n] eqn:EL; [lia|]. rewrite seq_nat_S. cbn [close_binaries]. rewrite E1. cbn [do_binaries]. rewrite E0. cbn [bn_parts].
    exists p1, D, (Err EAttribute). split; [reflexivity|]. split; auto; try congruence.
    rewrite E1. f_equal. destruct D as [x y z]. cbn in *. subst y. reflexivity.
Qed.

Lemma inv_close p d D p' D' r : inv limit p -> nth_error (ps_dicts p) d = Some D -> closed_as p d D p' D' r -> inv limit p'.
Proof.
  intros I E [C1 C2 C3 C4 C5 C6 C7 C8 C9].
  assert (IU : forall d', in_use p' d' = in_use p d') by (intros d'; unfold in_use; now rewrite C7).
  assert (IC : forall d', in_cache p' d' = in_cache p d') by (intros d'; unfold in_cache; now rewrite C8).
  destruct (inv_dict _ _ I _ _ E) as [L1 L2 P1 P2 CL].
  split.
  - intros d' D1 E'. destruct (Nat.eq_dec d' d) as [->|N].
    + assert (D1 = D') as -> by congruence. split.
      * congruence. * congruence. * congruence.
      * intros _. destruct r as [[]|[]]; try (destruct C9 as (? & ? & ?); discriminate).
        -- destruct C9 as (_ & _ & _ & H). destruct (nth_error (do_binaries D') 0) as [x|] eqn:E0; [|apply nth_error_None in E0; lia]. exists false. rewrite (H _ _ E0). reflexivity.
        -- destruct C9 as (_ & F & ->). auto.
        -- destruct C9 as (_ & _ & _ & F). eauto.
      * intros b x Eb O. rewrite IU, IC. destruct r as [[]|[]]; try (destruct C9 as (? & ? & ?); discriminate).
        -- destruct C9 as (_ & U & C & _). auto.
        -- destruct C9 as (_ & F & ->). eauto.
        -- destruct C9 as (_ & _ & F & _). rewrite (F _ _ Eb) in O. discriminate.
    + rewrite C5 in E' by exact N. destruct (inv_dict _ _ I _ _ E') as [Q1 Q2 Q3 Q4 Q5]. split; auto. intros b x Eb O. rewrite IU, IC. eauto.
  - rewrite C6, C7. apply (inv_obj _ _ I).
  - rewrite C8. intros d' w wi H. destruct (inv_key _ _ I _ _ _ H) as (D1 & E' & Ew). destruct (Nat.eq_dec d' d) as [->|N].
    + exists D'. split; [exact C1|]. rewrite C2. congruence.
    + exists D1. rewrite C5; auto.
  - rewrite C8. apply (inv_size _ _ I).
  - rewrite C8. apply (inv_nodup _ _ I).
Qed.

(** ** Every action *)
Lemma in_use_app p d0 d c : in_use (Process (ps_dicts p) (ps_objects p ++ [Some d0]) c) d = in_use p d || Nat.eqb d0 d.
Proof. unfold in_use. cbn [ps_objects]. rewrite existsb_app. cbn [existsb]. now rewrite orb_false_r. Qed.
(** A new object of a Dictionary whose maps are open *)
Lemma inv_object p d D : inv limit p -> nth_error (ps_dicts p) d = Some D -> (forall b x, nth_error (do_binaries D) b = Some x -> bn_open x = true) ->
  inv limit (Process (ps_dicts p) (ps_objects p ++ [Some d]) (ps_cache p)).
Proof.
  intros I E OP. split; cbn [ps_dicts ps_objects ps_cache].
  - intros d' D' E'. destruct (inv_dict _ _ I _ _ E') as [Q1 Q2 Q3 Q4 Q5]. split; auto. intros b x Eb O. destruct (Q5 _ _ Eb O) as (A & B & C). split; [exact A|]. split; [|exact C].
    rewrite in_use_app, B. destruct (Nat.eqb_spec d d') as [<-|]; [|reflexivity]. assert (D' = D) as -> by congruence. rewrite (OP _ _ Eb) in O. discriminate.
  - intros h d' H. destruct (Nat.lt_ge_cases h (length (ps_objects p))).
    + rewrite nth_error_app1 in H by lia. eapply inv_obj; eauto.
    + rewrite nth_error_app2 in H by lia. destruct (h - length (ps_objects p))%nat as [|k]; [|destruct k; discriminate]. cbn [nth_error] in H. injection H as <-. apply nth_error_Some. congruence.
  - apply (inv_key _ _ I). - apply (inv_size _ _ I). - apply (inv_nodup _ _ I).
Qed.
Lemma dict_of p h d : inv limit p -> nth_error (ps_objects p) h = Some (Some d) -> exists D, nth_error (ps_dicts p) d = Some D.
Proof. intros I H. pose proof (inv_obj _ _ I _ _ H). destruct (nth_error (ps_dicts p) d) as [D|] eqn:E; [eauto|apply nth_error_None in E; lia]. Qed.
Lemma use_of p h d : nth_error (ps_objects p) h = Some (Some d) -> in_use p d = true.
Proof. intros H. apply in_use_iff. eauto. Qed.

Lemma inv_act p a : inv limit p -> inv limit (fst (act limit p a)).
Proof.
  intros I. destruct a as [system users offsets|d|h wids|h wids|h|d]; cbn [act].
  - cbn [fst]. split; cbn [ps_dicts ps_objects ps_cache].
    + intros d D E. destruct (Nat.lt_ge_cases d (length (ps_dicts p))) as [L|L].
      * rewrite nth_error_app1 in E by exact L. destruct (inv_dict _ _ I _ _ E) as [Q1 Q2 Q3 Q4 Q5]. split; auto.
      * rewrite nth_error_app2 in E by exact L. destruct (d - length (ps_dicts p))%nat as [|k]; [|destruct k; discriminate]. cbn [nth_error] in E. injection E as <-.
        assert (R : forall b x, nth_error (repeat (Binary true true) (S (length users))) b = Some x -> x = Binary true true) by (intros b x H; apply nth_error_In in H; now apply repeat_spec in H).
        split; cbn [do_lexicon do_parts do_binaries ls_lexicons].
        -- cbn [repeat length]. now rewrite repeat_length.
        -- cbn [repeat length]. lia.
        -- intros _. exact R.
        -- discriminate.
        -- intros b x H O. rewrite (R _ _ H) in O. discriminate.
    + intros h d H. pose proof (inv_obj _ _ I _ _ H). rewrite app_length. lia.
    + intros d w wi H. destruct (inv_key _ _ I _ _ _ H) as (D & E & Ew). exists D. split; [|exact Ew]. rewrite nth_error_app1; [exact E|]. apply nth_error_Some. congruence.
    + apply (inv_size _ _ I). + apply (inv_nodup _ _ I).
  - destruct (nth_error (ps_dicts p) d) as [D|] eqn:E; [|exact I]. destruct (do_parts D) eqn:P; [|exact I]. cbn [fst].
    eapply inv_object; eauto. intros b x H. now rewrite (ok_parts _ _ _ (inv_dict _ _ I _ _ E) P _ _ H).
  - destruct (nth_error (ps_objects p) h) as [[d|]|] eqn:H; try exact I. destruct (dict_of _ _ _ I H) as (D & E).
    destruct (shared_word_infos_ok limit _ _ wids _ I E (use_of _ _ _ H)) as (p' & -> & _ & _ & I' & _). destruct (mapM _ wids); exact I'.
  - destruct (nth_error (ps_objects p) h) as [[d|]|] eqn:H; try exact I. destruct (dict_of _ _ _ I H) as (D & E).
    destruct (shared_word_infos_ok limit _ _ wids _ I E (use_of _ _ _ H)) as (p' & -> & Ed & Eo & I' & _). destruct (mapM _ wids); [|exact I']. cbn [fst].
    apply (inv_object _ _ D I'); [now rewrite Ed|]. intros b x Hb. eapply (open_of limit); [exact I'|rewrite Ed; exact E|exact Hb|]. apply in_use_iff. exists h. now rewrite Eo.
  - destruct (nth_error (ps_objects p) h) as [[d|]|] eqn:H; try exact I. cbn [fst].
    assert (NO : forall h' d', nth_error (upd (ps_objects p) h (fun _ => None)) h' = Some (Some d') -> nth_error (ps_objects p) h' = Some (Some d')).
    { intros h' d'. rewrite nth_upd. destruct (Nat.eqb h' h); [rewrite H; discriminate|auto]. }
    split; cbn [ps_dicts ps_objects ps_cache].
    + intros d' D' E'. destruct (inv_dict _ _ I _ _ E') as [Q1 Q2 Q3 Q4 Q5]. split; auto. intros b x Eb O. destruct (Q5 _ _ Eb O) as (A & B & C). split; [exact A|]. split; [|exact C].
      destruct (in_use (Process _ _ _) d') eqn:U; [|reflexivity]. apply in_use_iff in U as (h' & U). cbn [ps_objects] in U. apply NO in U. rewrite (use_of _ _ _ U) in B. discriminate.
    + intros h' d' H'. apply NO in H'. eapply inv_obj; eauto.
    + apply (inv_key _ _ I). + apply (inv_size _ _ I). + apply (inv_nodup _ _ I).
  - destruct (nth_error (ps_dicts p) d) as [D|] eqn:E; [|exact I]. destruct (close_dict_ok _ _ _ I E) as (p' & D' & r & -> & C). cbn [fst]. eapply inv_close; eauto.
Qed.
Lemma inv_acts l : forall p, inv limit p -> inv limit (acts limit p l).
Proof. induction l as [|a l IH]; intros p I; [exact I|]. cbn [acts fold_left]. apply IH, inv_act, I. Qed.
End closing.
