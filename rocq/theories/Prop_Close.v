(** C84: the life of Dictionary objects in a process, and [close]. *)
From Coq Require Import List ZArith Lia Bool Arith.
From Verif Require Import Base M_Lattice M_Tokenizer M_Bytes M_DicReader M_LexiconSet M_Close S_Close P_Close P_DicToy Prop_Lexicon.
Import ListNotations.
Open Scope Z_scope.

Section close.
Variable limit : nat.

(** ** The model's test for memoryviews is reachability *)
Lemma viewed_reachable p d b : inv limit p -> (viewed p d b = true <-> reachable p (TView d b)).
Proof.
  intros I. split.
  - unfold viewed. destruct (nth_error (ps_dicts p) d) as [D|] eqn:E; [|discriminate]. destruct (nth_error (do_binaries D) b) as [x|] eqn:Eb; [|discriminate].
    destruct (inv_dict _ _ I _ _ E) as [L _ _ _ _].
    assert (exists lx, nth_error (ls_lexicons (do_lexicon D)) b = Some lx) as (lx & El).
    { destruct (nth_error (ls_lexicons (do_lexicon D)) b) eqn:El; [eauto|]. apply nth_error_None in El. assert (b < length (do_binaries D))%nat by (apply nth_error_Some; congruence). lia. }
    assert (S : reachable p (TSet d) -> reachable p (TView d b)).
    { intros R. eapply reach_step; [|apply lexicon_view]. eapply reach_step; [exact R|]. eapply set_lexicon; eauto. }
    rewrite !orb_true_iff. intros [[[P|P]|U]|C].
    + eapply reach_step; [|apply lexicon_view]. eapply reach_step; [|eapply binary_lexicon; eauto]. eapply reach_step; [|eapply dictionary_binary; eauto]. apply reach_root. eapply root_dictionary; eauto.
    + apply S. eapply reach_step; [|eapply dictionary_set; eauto]. apply reach_root. eapply root_dictionary; eauto.
    + apply in_use_iff in U as (h & U). apply S. eapply reach_step; [|eapply object_set; eauto]. apply reach_root. eapply root_object; eauto.
    + apply in_cache_iff in C as (w & wi & C). apply S. eapply reach_step; [apply reach_root; eapply root_key; exact C|]. apply (key_set p (d, w)).
  - pose (has := fun d b => exists D x, nth_error (ps_dicts p) d = Some D /\ nth_error (do_binaries D) b = Some x).
    pose (R := fun t => match t with
      | TDictionary d => exists D, nth_error (ps_dicts p) d = Some D
      | TBinary d b => has d b
      | TObject h => exists d, nth_error (ps_objects p) h = Some (Some d)
      | TKey k => exists wi, In (k, wi) (ps_cache p)
      | TGrammar d b | TLexicon d b | TView d b => viewed p d b = true
      | TSet d => exists D, nth_error (ps_dicts p) d = Some D /\ do_parts D || in_use p d || in_cache p d = true
      end).
    assert (V : forall d D b x, nth_error (ps_dicts p) d = Some D -> nth_error (do_binaries D) b = Some x -> bn_parts x || do_parts D || in_use p d || in_cache p d = true -> viewed p d b = true).
    { intros d0 D b0 x E Eb H. unfold viewed. now rewrite E, Eb. }
    assert (Z0 : forall d D, nth_error (ps_dicts p) d = Some D -> exists x, nth_error (do_binaries D) 0 = Some x).
    { intros d0 D E. pose proof (ok_some _ _ _ (inv_dict _ _ I _ _ E)). destruct (nth_error (do_binaries D) 0) as [x|] eqn:H0; [eauto|]. apply nth_error_None in H0. lia. }
    assert (G : forall t, reachable p t -> R t).
    { intros t H. induction H as [t H|t u H IH S].
      - destruct H; cbn [R]; eauto.
      - destruct S as [d0 D E P|d0 D E P|d0 D b0 x E Eb|d0 D b0 x E Eb P|d0 D b0 x E Eb P|h d0 H0|h d0 H0|k|d0 D b0 lx E El|d0 b0|d0 b0]; cbn [R] in *.
        + destruct (Z0 _ _ E) as (x & Ex). eapply V; eauto. rewrite P, orb_true_r. reflexivity.
        + exists D. rewrite P. auto.
        + exists D, x. auto.
        + eapply V; eauto. rewrite P. reflexivity.
        + eapply V; eauto. rewrite P. reflexivity.
        + destruct (dict_of _ _ _ _ I H0) as (D & E). destruct (Z0 _ _ E) as (x & Ex). eapply V; eauto. rewrite (use_of _ _ _ H0), orb_true_r. reflexivity.
        + destruct (dict_of _ _ _ _ I H0) as (D & E). exists D. split; [exact E|]. rewrite (use_of _ _ _ H0), orb_true_r. reflexivity.
        + destruct IH as (wi & IH). destruct k as [d0 w]. cbn [fst]. destruct (inv_key _ _ I _ _ _ IH) as (D & E & _). exists D. split; [exact E|].
          assert (C : in_cache p d0 = true) by (apply in_cache_iff; eauto). rewrite C, orb_true_r. reflexivity.
        + destruct IH as (D' & E' & IH). assert (D' = D) as -> by congruence. pose proof (ok_one _ _ _ (inv_dict _ _ I _ _ E)) as L.
          destruct (nth_error (do_binaries D) b0) as [x|] eqn:Eb; [|apply nth_error_None in Eb; assert (b0 < length (ls_lexicons (do_lexicon D)))%nat by (apply nth_error_Some; congruence); lia].
          eapply V; eauto. rewrite <- !orb_assoc in *. now rewrite IH, orb_true_r.
        + exact IH.
        + exact IH. }
    intros H. exact (G _ H).
Qed.

(** ** Which Dictionaries there are *)
Definition opens (a : action) : list lexset := match a with AOpen s u o => [LexSet (s :: u) o] | _ => [] end.
Lemma opened_nth l : forall d, opened l d = nth_error (flat_map opens l) d.
Proof.
  induction l as [|a l IH]; intros d; [now destruct d|]. destruct a; cbn [opened flat_map opens app]; try apply IH. destruct d; cbn [nth_error]; auto.
Qed.
Lemma nth_ext_opt {A} (l1 l2 : list A) : (forall i, nth_error l1 i = nth_error l2 i) -> l1 = l2.
Proof.
  revert l2. induction l1 as [|a l1 IH]; intros [|b l2] H; [reflexivity|specialize (H 0%nat); discriminate|specialize (H 0%nat); discriminate|].
  pose proof (H 0%nat) as H0. cbn [nth_error] in H0. injection H0 as <-. f_equal. apply IH. intros i. exact (H (S i)).
Qed.
Lemma sets_act p a : inv limit p -> map do_lexicon (ps_dicts (fst (act limit p a))) = map do_lexicon (ps_dicts p) ++ opens a.
Proof.
  intros I. destruct a as [system users offsets|d|h wids|h wids|h|d]; cbn [act opens]; rewrite ?app_nil_r.
  - cbn [fst ps_dicts]. rewrite map_app. reflexivity.
  - destruct (nth_error (ps_dicts p) d) as [D|]; [|reflexivity]. destruct (do_parts D); reflexivity.
  - destruct (nth_error (ps_objects p) h) as [[d|]|] eqn:H; try reflexivity. destruct (dict_of _ _ _ _ I H) as (D & E).
    destruct (shared_word_infos_ok limit _ _ wids _ I E (use_of _ _ _ H)) as (p' & -> & Ed & _). destruct (mapM _ wids); cbn [fst]; now rewrite Ed.
  - destruct (nth_error (ps_objects p) h) as [[d|]|] eqn:H; try reflexivity. destruct (dict_of _ _ _ _ I H) as (D & E).
    destruct (shared_word_infos_ok limit _ _ wids _ I E (use_of _ _ _ H)) as (p' & -> & Ed & _). destruct (mapM _ wids); cbn [fst ps_dicts]; now rewrite Ed.
  - destruct (nth_error (ps_objects p) h) as [[d|]|]; reflexivity.
  - destruct (nth_error (ps_dicts p) d) as [D|] eqn:E; [|reflexivity]. destruct (close_dict_ok limit _ _ _ I E) as (p' & D' & r & -> & [C1 C2 C3 C4 C5 C6 C7 C8 C9]). cbn [fst].
    apply nth_ext_opt. intros i. rewrite !nth_error_map. destruct (Nat.eq_dec i d) as [->|N]; [rewrite C1, E; cbn [option_map]; now rewrite C2|]. now rewrite C5.
Qed.
Lemma sets_acts l : forall p, inv limit p -> map do_lexicon (ps_dicts (acts limit p l)) = map do_lexicon (ps_dicts p) ++ flat_map opens l.
Proof.
  induction l as [|a l IH]; intros p I; cbn [acts fold_left flat_map]; [now rewrite app_nil_r|]. unfold acts in IH. rewrite IH by (now apply inv_act). rewrite sets_act by exact I. now rewrite app_assoc.
Qed.
Lemma opened_dict l d : opened l d = option_map do_lexicon (nth_error (ps_dicts (acts limit started l)) d).
Proof. rewrite opened_nth, <- nth_error_map, sets_acts by apply inv_started. reflexivity. Qed.
Lemma inv_history l : inv limit (acts limit started l).
Proof. apply inv_acts, inv_started. Qed.

(** ** What close changes *)
Lemma acts_app p l1 l2 : acts limit p (l1 ++ l2) = acts limit (acts limit p l1) l2.
Proof. unfold acts. apply fold_left_app. Qed.

(** A Dictionary changes only when it is closed, and then only the first time *)
Lemma same_dict p a d D : inv limit p -> nth_error (ps_dicts p) d = Some D -> (a <> AClose d \/ do_parts D = false) -> nth_error (ps_dicts (fst (act limit p a))) d = Some D.
Proof.
  intros I E H. destruct a as [system users offsets|d0|h wids|h wids|h|d0]; cbn [act].
  - cbn [fst ps_dicts]. rewrite nth_error_app1; [exact E|]. apply nth_error_Some. congruence.
  - destruct (nth_error (ps_dicts p) d0) as [D0|]; [|exact E]. destruct (do_parts D0); exact E.
  - destruct (nth_error (ps_objects p) h) as [[d0|]|] eqn:H0; try exact E. destruct (dict_of _ _ _ _ I H0) as (D0 & E0).
    destruct (shared_word_infos_ok limit _ _ wids _ I E0 (use_of _ _ _ H0)) as (p' & -> & Ed & _). destruct (mapM _ wids); cbn [fst]; now rewrite Ed.
  - destruct (nth_error (ps_objects p) h) as [[d0|]|] eqn:H0; try exact E. destruct (dict_of _ _ _ _ I H0) as (D0 & E0).
    destruct (shared_word_infos_ok limit _ _ wids _ I E0 (use_of _ _ _ H0)) as (p' & -> & Ed & _). destruct (mapM _ wids); cbn [fst ps_dicts]; now rewrite Ed.
  - destruct (nth_error (ps_objects p) h) as [[d0|]|]; exact E.
  - destruct (nth_error (ps_dicts p) d0) as [D0|] eqn:E0; [|exact E]. destruct (close_dict_ok limit _ _ _ I E0) as (p' & D' & r & -> & [C1 C2 C3 C4 C5 C6 C7 C8 C9]). cbn [fst].
    destruct (Nat.eq_dec d d0) as [<-|N]; [|now rewrite C5]. destruct H as [H|H]; [congruence|]. assert (D0 = D) as -> by congruence. rewrite C1.
    destruct r as [u|e]; [destruct C9; congruence|]. destruct e; try (destruct C9 as (? & ? & ?); congruence).
Qed.
Lemma closed_stays l d D : forall p, inv limit p -> nth_error (ps_dicts p) d = Some D -> do_parts D = false -> nth_error (ps_dicts (acts limit p l)) d = Some D.
Proof.
  induction l as [|a l IH]; intros p I E P; [exact E|]. cbn [acts fold_left]. apply IH; [now apply inv_act|apply same_dict; auto|exact P].
Qed.

(** ** Which words are in the cache *)
Lemma filter_cut k : forall n l, NoDup l ->
  firstn n (filter (fun x => negb (key_eqb x k)) (firstn (S n) l)) = firstn n (filter (fun x => negb (key_eqb x k)) l).
Proof.
  induction n as [|n IH]; intros l N; [reflexivity|]. destruct l as [|a l]; [reflexivity|]. inversion N as [|? ? Na Nl]; subst.
  rewrite (firstn_cons (S n)). cbn [filter]. destruct (key_eqb a k) eqn:E; cbn [negb].
  - apply key_eqb_eq in E as ->. rewrite (filter_absent l) by exact Na. rewrite filter_absent.
    + rewrite firstn_firstn. now rewrite Nat.min_id.
    + intros H. apply Na. rewrite <- (firstn_skipn (S n) l). apply in_or_app. now left.
  - cbn [firstn]. f_equal. apply IH. exact Nl.
Qed.
Lemma touch_cut l k : NoDup l -> firstn CACHE_SIZE (touch (firstn CACHE_SIZE l) k) = firstn CACHE_SIZE (touch l k).
Proof. intros N. unfold touch, CACHE_SIZE. rewrite !firstn_cons. f_equal. now apply filter_cut. Qed.
Lemma touches_cut ks : forall l, NoDup l -> touches (firstn CACHE_SIZE l) ks = firstn CACHE_SIZE (fold_left touch ks l).
Proof.
  induction ks as [|k ks IH]; intros l N; [reflexivity|]. unfold touches in *. cbn [fold_left]. rewrite touch_cut by exact N. apply IH. now apply nodup_touch.
Qed.
Lemma nodup_touches ks : forall l, NoDup l -> NoDup (fold_left touch ks l).
Proof. induction ks as [|k ks IH]; intros l N; [exact N|]. cbn [fold_left]. apply IH, nodup_touch, N. Qed.

Lemma keys_act p a : inv limit p -> map fst (ps_cache (fst (act limit p a))) = touches (map fst (ps_cache p)) (asked_by limit p a).
Proof.
  intros I. destruct a as [system users offsets|d|h wids|h wids|h|d]; cbn [act asked_by].
  - reflexivity.
  - destruct (nth_error (ps_dicts p) d) as [D|]; [|reflexivity]. destruct (do_parts D); reflexivity.
  - destruct (nth_error (ps_objects p) h) as [[d|]|] eqn:H; try reflexivity. destruct (dict_of _ _ _ _ I H) as (D & E). rewrite E.
    destruct (shared_word_infos_ok limit _ _ wids _ I E (use_of _ _ _ H)) as (p' & -> & _ & _ & _ & K). destruct (mapM _ wids); exact K.
  - destruct (nth_error (ps_objects p) h) as [[d|]|] eqn:H; try reflexivity. destruct (dict_of _ _ _ _ I H) as (D & E). rewrite E.
    destruct (shared_word_infos_ok limit _ _ wids _ I E (use_of _ _ _ H)) as (p' & -> & _ & _ & _ & K). destruct (mapM _ wids); exact K.
  - destruct (nth_error (ps_objects p) h) as [[d|]|]; reflexivity.
  - destruct (nth_error (ps_dicts p) d) as [D|] eqn:E; [|reflexivity]. destruct (close_dict_ok limit _ _ _ I E) as (p' & D' & r & -> & [C1 C2 C3 C4 C5 C6 C7 C8 C9]). cbn [fst]. now rewrite C8.
Qed.
Lemma keys_acts l : forall p ks, inv limit p -> NoDup ks -> map fst (ps_cache p) = firstn CACHE_SIZE ks ->
  map fst (ps_cache (acts limit p l)) = firstn CACHE_SIZE (fold_left touch (asked limit p l) ks).
Proof.
  induction l as [|a l IH]; intros p ks I N K; cbn [acts fold_left asked]; [exact K|].
  rewrite fold_left_app. apply IH; [now apply inv_act|now apply nodup_touches|]. rewrite keys_act by exact I. rewrite K. now apply touches_cut.
Qed.
Lemma keys_history l : map fst (ps_cache (acts limit started l)) = firstn CACHE_SIZE (latest (asked limit started l)).
Proof. apply keys_acts; [apply inv_started|constructor|reflexivity]. Qed.

(** ** C84 *)
(** The program holds an object, a tokenizer or morphemes, that was made from Dictionary [d] *)
Definition holds (p : process) (h d : nat) : Prop := nth_error (ps_objects p) h = Some (Some d).
(** Nothing of the file is gone *)
Definition files (p : process) (d : nat) (open : bool) : Prop :=
  exists D, nth_error (ps_dicts p) d = Some D /\ forall b x, nth_error (do_binaries D) b = Some x -> bn_open x = open.

(** A map is never closed while something still has a view of it, whatever the history. *)
Theorem C84_no_dangling l d D b x : let p := acts limit started l in
  nth_error (ps_dicts p) d = Some D -> nth_error (do_binaries D) b = Some x -> bn_open x = false -> ~ reachable p (TView d b).
Proof.
  cbn zeta. pose proof (inv_history l) as I. intros E Eb O R. apply (viewed_reachable _ _ _ I) in R. destruct (inv_dict _ _ I _ _ E) as [_ _ P1 P2 CL]. destruct (CL _ _ Eb O) as (H1 & H2 & H3).
  unfold viewed in R. rewrite E, Eb, H1, H2, H3, !orb_false_r in R. revert R O.
  (* a closed map belongs to a binary without parts *)
  clear - Eb E limit H1. intros R O.
  assert (G : forall l d D b x, nth_error (ps_dicts (acts limit started l)) d = Some D -> nth_error (do_binaries D) b = Some x -> bn_open x = false -> bn_parts x = false).
  { clear. intros l. induction l as [|a l IH] using rev_ind; intros d D b x E Eb O; [destruct d; discriminate|].
    rewrite acts_app in E. cbn [acts fold_left] in E. fold (acts limit started l) in E. pose proof (inv_history l) as I.
    assert (K : forall D0, nth_error (ps_dicts (acts limit started l)) d = Some D0 -> (a <> AClose d \/ do_parts D0 = false) -> bn_parts x = false).
    { intros D0 E0 H. pose proof (same_dict _ a _ _ I E0 H) as E1. assert (D0 = D) as -> by congruence. eauto. }
    destruct (nth_error (ps_dicts (acts limit started l)) d) as [D0|] eqn:E0.
    - destruct (do_parts D0) eqn:P; [|eauto]. destruct a as [system users offsets|d0|h wids|h wids|h|d0]; try (eapply K; [reflexivity|left; discriminate]).
      destruct (Nat.eq_dec d0 d) as [->|N]; [|eapply K; [reflexivity|left; congruence]].
      cbn [act] in E. rewrite E0 in E. destruct (close_dict_ok limit _ _ _ I E0) as (p' & D' & r & Ec & [C1 C2 C3 C4 C5 C6 C7 C8 C9]). rewrite Ec in E. cbn [fst] in E. assert (D' = D) as -> by congruence.
      destruct r as [u|e].
      + destruct C9 as (_ & _ & _ & F). now rewrite (F _ _ Eb).
      + destruct e; try (destruct C9 as (? & ? & ?); congruence). destruct C9 as (_ & _ & F & _). rewrite (F _ _ Eb) in O. discriminate.
    - exfalso. pose proof (sets_act _ a I) as SS. assert (S' := f_equal (fun L => nth_error L d) SS). cbn beta in S'. rewrite nth_error_map, E in S'. cbn [option_map] in S'.
      destruct a as [system users offsets|d0|h wids|h wids|h|d0]; cbn [opens] in S'; rewrite ?app_nil_r, ?nth_error_map, ?E0 in S'; try discriminate.
      cbn [act fst ps_dicts] in E. apply nth_error_None in E0. rewrite nth_error_app2 in E by exact E0. destruct (d - _)%nat as [|k]; [|destruct k; discriminate]. cbn [nth_error] in E. injection E as <-.
      cbn [do_binaries] in Eb. change (Binary true true :: repeat (Binary true true) (length users)) with (repeat (Binary true true) (S (length users))) in Eb.
      apply nth_error_In, repeat_spec in Eb. subst x. discriminate. }
  rewrite (G _ _ _ _ _ E Eb O) in R. discriminate.
Qed.

(** An object that the program holds answers as the words of its Dictionary are, whichever
    Dictionaries were opened, used and closed before, and whatever the cache that they share holds. *)
Theorem C84_answers l h d wids : let p := acts limit started l in
  holds p h d ->
  exists s, opened l d = Some s /\
    snd (act limit p (AUse h wids)) = Some (x <- mapM (ls_word_info limit s) wids ;; Ok (RInfos x)) /\
    snd (act limit p (AMake h wids)) = Some (_ <- mapM (ls_word_info limit s) wids ;; Ok (RObject (length (ps_objects p)))).
Proof.
  cbn zeta. unfold holds. intros H. pose proof (inv_history l) as I. destruct (dict_of _ _ _ _ I H) as (D & E). exists (do_lexicon D). split; [now rewrite opened_dict, E|].
  cbn [act]. rewrite H. destruct (shared_word_infos_ok limit _ _ wids _ I E (use_of _ _ _ H)) as (p' & -> & _ & Eo & _). destruct (mapM _ wids); cbn [snd bind]; [|auto]. now rewrite Eo.
Qed.
(** The files of a Dictionary with a live object are there. *)
Theorem C84_files l h d : holds (acts limit started l) h d -> files (acts limit started l) d true.
Proof.
  unfold holds, files. intros H. pose proof (inv_history l) as I. destruct (dict_of _ _ _ _ I H) as (D & E). exists D. split; [exact E|]. intros b x Eb. eapply open_of; eauto. eapply use_of; eauto.
Qed.

Lemma first_close l d s : opened l d = Some s -> ~ In (AClose d) l -> exists D, nth_error (ps_dicts (acts limit started l)) d = Some D /\ do_parts D = true.
Proof.
  revert s. induction l as [|a l IH] using rev_ind; intros s O N; [discriminate|]. rewrite opened_dict in O. rewrite acts_app in *. cbn [acts fold_left] in *. fold (acts limit started l) in *. pose proof (inv_history l) as I.
  destruct (nth_error (ps_dicts (acts limit started l)) d) as [D|] eqn:E.
  - destruct (IH (do_lexicon D)) as (D' & E' & P); [now rewrite opened_dict, E|intros H; apply N, in_or_app; now left|]. exists D'. split; [|exact P]. apply same_dict; [exact I|congruence|left; intros ->; apply N, in_or_app; right; now left].
  - pose proof (sets_act _ a I) as SS. destruct (nth_error (ps_dicts (fst (act limit (acts limit started l) a))) d) as [D|] eqn:E1; [|discriminate].
    assert (S' := f_equal (fun L => nth_error L d) SS). cbn beta in S'. rewrite nth_error_map, E1 in S'. cbn [option_map] in S'.
    destruct a as [system users offsets|d0|h wids|h wids|h|d0]; cbn [opens] in S'; rewrite ?app_nil_r, ?nth_error_map, ?E in S'; try discriminate.
    cbn [act fst ps_dicts] in E1. apply nth_error_None in E. rewrite nth_error_app2 in E1 by exact E. destruct (d - _)%nat as [|k]; [|destruct k; discriminate]. cbn [nth_error] in E1. injection E1 as <-. eauto.
Qed.

(** The first [close()] of a Dictionary raises a BufferError when the program holds an
    object of it, or when one of its words is among the last 1024 different words that the process looked up;
    otherwise it succeeds and every file is closed, for good. *)
Theorem C84_close_partial l d s : let p := acts limit started l in
  opened l d = Some s -> ~ In (AClose d) l ->
  (snd (act limit p (AClose d)) = Some (Ok RDone) /\
     (forall h, ~ holds p h d) /\ (forall w, ~ In (d, w) (firstn 1024 (latest (asked limit started l)))) /\
     forall more, files (acts limit started (l ++ AClose d :: more)) d false) \/
  (snd (act limit p (AClose d)) = Some (Err EBuffer) /\
     ((exists h, holds p h d) \/ (exists w, In (d, w) (firstn 1024 (latest (asked limit started l))))) /\
     forall more, files (acts limit started (l ++ AClose d :: more)) d true).
Proof.
  cbn zeta. intros O N. pose proof (inv_history l) as I. destruct (first_close _ _ _ O N) as (D & E & P). cbn [act]. rewrite E.
  assert (K : in_cache (acts limit started l) d = true <-> exists w, In (d, w) (firstn CACHE_SIZE (latest (asked limit started l)))).
  { rewrite in_cache_iff, <- keys_history. split.
    - intros (w & wi & H). exists w. apply in_map_iff. exists ((d, w), wi). auto.
    - intros (w & H). apply in_map_iff in H as ((k & wi) & Ek & H). cbn [fst] in Ek. subst k. eauto. }
  change 1024%nat with CACHE_SIZE.
  assert (T : forall more, acts limit started (l ++ AClose d :: more) = acts limit (fst (act limit (acts limit started l) (AClose d))) more) by (intros more; rewrite acts_app; reflexivity).
  pose proof (inv_act limit _ (AClose d) I) as I1. cbn [act] in T, I1. rewrite E in T, I1.
  destruct (close_dict_ok limit _ _ _ I E) as (p' & D' & r & Ec & [C1 C2 C3 C4 C5 C6 C7 C8 C9]). rewrite Ec in *. cbn [fst snd] in *.
  assert (F : forall o, (forall b x, nth_error (do_binaries D') b = Some x -> bn_open x = o) -> forall more, files (acts limit started (l ++ AClose d :: more)) d o).
  { intros o F more. rewrite T. exists D'. split; [|exact F]. apply closed_stays; auto. }
  destruct r as [u|e].
  - left. destruct C9 as (_ & U & C & G). split; [reflexivity|]. split; [|split].
    + intros h H. unfold holds in H. rewrite (use_of _ _ _ H) in U. discriminate.
    + intros w H. assert (in_cache (acts limit started l) d = true) by (apply K; eauto). congruence.
    + apply F. intros b x H. now rewrite (G _ _ H).
  - right. destruct e; try (destruct C9 as (? & ? & ?); congruence). destruct C9 as (_ & U & G & _). split; [reflexivity|]. split; [|apply F; exact G].
    apply orb_true_iff in U as [U|U]; [left; apply in_use_iff in U; exact U|right; apply K; exact U].
Qed.

(** Afterwards, whether it succeeded or not, the Dictionary makes no tokenizers and cannot be
    closed again. *)
Theorem C84_after l1 l2 d s : let p := acts limit started (l1 ++ AClose d :: l2) in
  opened l1 d = Some s ->
  snd (act limit p (AClose d)) = Some (Err EAttribute) /\ snd (act limit p (ACreate d)) = Some (Err EAttribute).
Proof.
  cbn zeta. intros B. pose proof (inv_history l1) as I1.
  assert (exists D, nth_error (ps_dicts (acts limit started (l1 ++ AClose d :: l2))) d = Some D /\ do_parts D = false) as (D & E & P).
  { rewrite acts_app. cbn [acts fold_left]. fold (acts limit started l1). rewrite opened_dict in B. destruct (nth_error (ps_dicts (acts limit started l1)) d) as [D0|] eqn:E0; [|discriminate].
    pose proof (inv_act limit _ (AClose d) I1) as I2. cbn [act] in *. rewrite E0 in *. destruct (close_dict_ok limit _ _ _ I1 E0) as (p' & D' & r & Ec & [C1 C2 C3 C4 C5 C6 C7 C8 C9]). rewrite Ec in *. cbn [fst] in *.
    exists D'. split; [|exact C3]. apply closed_stays; auto. }
  pose proof (inv_history (l1 ++ AClose d :: l2)) as I. cbn [act]. rewrite E, P. split; [|reflexivity].
  destruct (close_dict_ok limit _ _ _ I E) as (p' & D' & r & -> & [C1 C2 C3 C4 C5 C6 C7 C8 C9]). cbn [snd].
  destruct r as [u|e]; [destruct C9; congruence|]. destruct e; try (destruct C9 as (? & ? & ?); congruence). reflexivity.
Qed.
End close.
Print Assumptions C84_no_dangling.
Print Assumptions C84_answers.
Print Assumptions C84_files.
Print Assumptions C84_close_partial.
Print Assumptions C84_after.

(** ** What does not hold *)
Definition toy_open : action := AOpen (0%nat, d_lexicon toy_dictionary) [] [0].
Definition toy_past : list action := [toy_open; ACreate 0; AMake 0 [0]; ADrop 0; ADrop 1].
(** A program that forgot its tokenizer and its morphemes cannot close the Dictionary when it
    looked at a word: the cache still refers to the LexiconSet.  The file stays mapped. *)
Theorem C84_forgotten_refuted : exists limit l d s, let p := acts limit started l in
  opened l d = Some s /\ ~ In (AClose d) l /\ (forall h, ~ holds p h d) /\
  snd (act limit p (AClose d)) = Some (Err EBuffer) /\ forall more, files (acts limit started (l ++ AClose d :: more)) d true.
Proof.
  exists 10%nat, toy_past, 0%nat. eexists. cbn zeta.
  assert (O : opened toy_past 0 = Some (LexSet [(0%nat, d_lexicon toy_dictionary)] [0])) by reflexivity.
  assert (N : ~ In (AClose 0) toy_past) by (cbn [toy_past In toy_open]; intros [H|[H|[H|[H|[H|[]]]]]]; discriminate).
  split; [exact O|]. split; [exact N|]. split.
  - intros [|[|[|h]]] H; unfold holds in H; vm_compute in H; discriminate.
  - assert (E : snd (act 10 (acts 10 started toy_past) (AClose 0)) = Some (Err EBuffer)) by (vm_compute; reflexivity). split; [exact E|].
    destruct (C84_close_partial 10 toy_past 0 _ O N) as [(H & _)|(_ & _ & H)]; [rewrite E in H; discriminate|exact H].
Qed.
Print Assumptions C84_forgotten_refuted.

(** ** The hypotheses are met *)
(** Two Dictionaries.  The first is closed while its tokenizer is alive and goes on answering;
    the second was not used for any word and is closed in full. *)
Example C84_nonvacuous :
  let l := [toy_open; toy_open; ACreate 0; ACreate 1; ADrop 1; AClose 0] in
  let p := acts 10 started l in
  holds p 0 0 /\ snd (act 10 p (AMake 0 [0; 1])) = Some (Ok (RObject 2)) /\ snd (act 10 p (AUse 0 [2 ^ 28])) = Some (Err EIndex) /\
  opened l 1 <> None /\ ~ In (AClose 1) l /\ snd (act 10 p (AClose 1)) = Some (Ok RDone) /\ snd (act 10 p (AClose 0)) = Some (Err EAttribute).
Proof.
  cbn zeta. split; [reflexivity|]. split; [vm_compute; reflexivity|]. split; [vm_compute; reflexivity|]. split; [discriminate|]. split.
  - cbn [In toy_open]. intros [H|[H|[H|[H|[H|[H|[]]]]]]]; discriminate.
  - split; vm_compute; reflexivity.
Qed.
