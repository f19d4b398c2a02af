(** C72: dictionary files that were cut short. *)
From Coq Require Import List ZArith Lia Bool Arith.
From Verif Require Import Base Utf8 M_Builder M_Lattice M_Tokenizer M_Bytes P_Bytes M_DicReader M_DicBuilder P_DicFormat P_DicWrite P_DicOpen P_DicGrammar P_DicSource P_DicLexicon P_DicFile P_DicToy Prop_Format Prop_Source.
Import ListNotations.
Open Scope Z_scope.

(** ** Programs that only read on, on a file and on what is left of it *)
Definition onward {A} (c : prog A) : Prop :=
  (forall d p, (p <= length d)%nat -> (p <= fst (prun d p c) <= length d)%nat) /\
  (forall d n p, (p <= n <= length d)%nat ->
     let '(q, r) := prun d p c in let '(q', r') := prun (firstn n d) p c in
     (q' = q /\ r' = r /\ (q <= n)%nat) \/ (exists e, r' = Err e) \/ q' = n).

Lemma cut_length {A} n (d : list A) : (n <= length d)%nat -> length (firstn n d) = n.
Proof. intros H. rewrite firstn_length. lia. Qed.
Lemma cut_read n (d : bytes) p m : (p <= n)%nat -> (n <= length d)%nat ->
  firstn m (skipn p (firstn n d)) = (if (p + m <=? n)%nat then firstn m (skipn p d) else skipn p (firstn n d)).
Proof.
  intros H1 H2. destruct (Nat.leb_spec (p + m) n) as [L|L].
  - rewrite skipn_firstn_comm, firstn_firstn. f_equal. lia.
  - apply firstn_all2. rewrite skipn_length, firstn_length. lia.
Qed.

Lemma on_ret {A} (a : A) : onward (Ret a).
Proof. split; [intros d p H; cbn; lia|]. intros d n p H. cbn. left. repeat split; lia. Qed.
Lemma on_raise {A} e : onward (@Raise A e).
Proof. split; [intros d p H; cbn; lia|]. intros d n p H. cbn. right. left. eauto. Qed.
Lemma on_lift {A} (r : res A) : onward (plift r).
Proof. destruct r; [apply on_ret|apply on_raise]. Qed.
Lemma on_read m : onward (pread m).
Proof.
  split.
  - intros d p H. cbn [pread prun fst]. rewrite firstn_length, skipn_length. lia.
  - intros d n p H. cbn [pread prun]. rewrite cut_read by lia. destruct (Nat.leb_spec (p + m) n) as [L|L].
    + left. split; [reflexivity|]. split; [reflexivity|]. rewrite firstn_length, skipn_length. lia.
    + right. right. rewrite skipn_length, firstn_length. lia.
Qed.
Lemma on_byte : onward pbyte.
Proof.
  split.
  - intros d p H. cbn [pbyte prun]. destruct (nth_error d p) eqn:E; cbn [fst]; [|lia]. assert (p < length d)%nat by (apply nth_error_Some; congruence). lia.
  - intros d n p H. cbn [pbyte prun]. destruct (nth_error (firstn n d) p) as [x|] eqn:E.
    + assert (L : (p < length (firstn n d))%nat) by (apply nth_error_Some; congruence). rewrite firstn_length in L.
      assert (E' : nth_error d p = Some x). { rewrite <- (firstn_skipn n d), nth_error_app1; [exact E|]. rewrite firstn_length. lia. }
      rewrite E'. left. repeat split. lia.
    + destruct (nth_error d p); right; left; eauto.
Qed.
Lemma on_bind {A B} (c : prog A) (f : A -> prog B) : onward c -> (forall a, onward (f a)) -> onward (pbind c f).
Proof.
  intros (M1 & S1) F. split.
  - intros d p H. rewrite prun_bind. specialize (M1 d p H). destruct (prun d p c) as [q [a|e]]; cbn [fst] in *; [|exact M1]. destruct (F a) as (M2 & _). specialize (M2 d q ltac:(lia)). lia.
  - intros d n p H. rewrite !prun_bind. specialize (S1 d n p H). destruct (M1 (firstn n d) p) as (_ & LQ); [rewrite cut_length by lia; lia|]. rewrite cut_length in LQ by lia.
    destruct (prun d p c) as [q r] eqn:E. destruct (prun (firstn n d) p c) as [q' r'] eqn:E'. cbn [fst] in LQ.
    destruct S1 as [(-> & -> & L)|[(e & ->)| ->]].
    + destruct r as [a|e].
      * destruct (M1 d p) as (LP & _); [lia|]. rewrite E in LP. cbn [fst] in LP. apply (proj2 (F a)). lia.
      * right. left. eauto.
    + destruct (match r with Ok a => _ | Err e => _ end). right. left. eauto.
    + destruct (match r with Ok a => _ | Err e => _ end) as [q2 r2]. destruct r' as [a|e]; [|right; left; eauto].
      destruct (F a) as (M2 & _). specialize (M2 (firstn n d) n). rewrite cut_length in M2 by lia. specialize (M2 (Nat.le_refl _)). destruct (prun (firstn n d) n (f a)) as [q3 r3]. cbn [fst] in M2. right. right. lia.
Qed.
Lemma on_times {A} (c : prog A) n : onward c -> onward (ptimes n c).
Proof. intros H. induction n as [|n IH]; cbn [ptimes]; [apply on_ret|]. apply on_bind; [exact H|]. intros a. apply on_bind; [exact IH|]. intros l. apply on_ret. Qed.
Lemma on_short : onward get_short.
Proof. apply on_bind; [apply on_read|]. intros b. apply on_ret. Qed.
Lemma on_string : onward get_string.
Proof. apply on_bind; [apply on_byte|]. intros n. apply on_bind; [apply on_read|]. intros b. apply on_lift. Qed.

(** The part of speech table and the sizes of the matrix *)
Definition grammar_head : prog (list (list text) * Z * Z) :=
  n <~ get_short ;; pos <~ ptimes (Z.to_nat n) (ptimes POS_DEPTH get_string) ;; l <~ get_short ;; r <~ get_short ;; Ret (pos, l, r).
Lemma on_head : onward grammar_head.
Proof.
  apply on_bind; [apply on_short|]. intros n. apply on_bind; [apply on_times, on_times, on_string|]. intros pos.
  apply on_bind; [apply on_short|]. intros l. apply on_bind; [apply on_short|]. intros r. apply on_ret.
Qed.
Lemma grammar_run d p o : prun d p (read_grammar d o) =
  if (o <=? length d)%nat then
    match prun d o grammar_head with
    | (q, Ok (pos, l, r)) => match view_matrix d q l r with
        | Ok m => if (p <=? length d)%nat then (p, Ok (Grammar pos l r m (q - o + 2 * Z.to_nat (l * r)))) else (q, Err EValue)
        | Err e => (q, Err e) end
    | (q, Err e) => (q, Err e)
    end
  else (p, Err EValue).
Proof.
  unfold read_grammar, grammar_head, ptell, pseek. cbn [pbind prun]. leb_t 0 (Z.of_nat o). cbn [andb].
  destruct (Nat.leb_spec o (length d)) as [L|L]; [leb_t (Z.of_nat o) (Z.of_nat (length d))|leb_f (Z.of_nat o) (Z.of_nat (length d)); reflexivity].
  rewrite Nat2Z.id, !prun_bind. destruct (prun d o get_short) as [q1 [n|e]]; [|reflexivity].
  rewrite !prun_bind. destruct (prun d q1 _) as [q2 [pos|e]]; [|reflexivity].
  rewrite !prun_bind. destruct (prun d q2 _) as [q3 [l|e]]; [|reflexivity].
  rewrite !prun_bind. destruct (prun d q3 _) as [q4 [r|e]]; [|reflexivity].
  cbn [prun]. rewrite !prun_bind. destruct (view_matrix d q4 l r) as [m|e]; [|reflexivity]. cbn [plift prun]. leb_t 0 (Z.of_nat p). cbn [andb].
  destruct (Nat.leb_spec p (length d)) as [L2|L2]; [leb_t (Z.of_nat p) (Z.of_nat (length d)); now rewrite Nat2Z.id|leb_f (Z.of_nat p) (Z.of_nat (length d)); reflexivity].
Qed.

(** ** What an opened file must contain *)
Lemma cut_slice n (d : bytes) a b : (b <= n)%nat -> slice (firstn n d) a b = slice d a b.
Proof. intros H. unfold slice. rewrite firstn_firstn. now rewrite Nat.min_l. Qed.
Lemma lexicon_reach d p o syn q lx : prun d p (read_lexicon d o syn) = (q, Ok lx) ->
  let s := Z.to_nat (unle (firstn 4 (skipn o d))) in let o1 := (o + 4 + 4 * s)%nat in
  let n1 := Z.to_nat (unle (firstn 4 (skipn o1 d))) in let o2 := (o1 + 4 + n1)%nat in
  (o2 <= length d)%nat /\ lx_trie lx = slice d (o + 4) o1 /\ lx_wids lx = slice d (o1 + 4) o2.
Proof.
  intros H s o1 n1 o2. unfold read_lexicon in H.
  rewrite prun_bind in H. cbn [pseek prun] in H. destruct (_ && _); [|discriminate]. rewrite Nat2Z.id in H.
  rewrite prun_bind in H. cbn [pread prun] in H. fold s in H.
  rewrite prun_bind in H. cbn [psub prun] in H. fold o1 in H.
  rewrite prun_bind in H. unfold read_wid_table in H.
  rewrite prun_bind in H. cbn [pseek prun] in H. destruct (_ && _); [|discriminate]. rewrite Nat2Z.id in H.
  rewrite prun_bind in H. cbn [pread prun] in H. fold n1 in H.
  rewrite prun_bind in H. cbn [psub prun] in H. fold o2 in H.
  rewrite prun_bind in H. unfold read_params in H.
  rewrite prun_bind in H. cbn [ptell prun] in H.
  rewrite prun_bind in H. cbn [pseek prun] in H.
  destruct ((0 <=? Z.of_nat o2) && (Z.of_nat o2 <=? Z.of_nat (length d))) eqn:E2; [|discriminate].
  apply andb_true_iff in E2 as (_ & E2). apply Z.leb_le in E2.
  split; [lia|].
  match type of H with (let (_, _) := ?t in _) = _ => destruct t as [p' [(n2 & ps)|e]] end; [|discriminate].
  cbn [prun] in H. injection H as _ <-. split; reflexivity.
Qed.

Definition storage (g : option grammar) : nat := match g with Some g => g_storage g | None => O end.
(** Where the word parameters begin *)
Definition params_at (x : dictionary) : nat :=
  (HEADER_SIZE + storage (d_grammar x) + 4 + length (lx_trie (d_lexicon x)) + 4 + length (lx_wids (d_lexicon x)))%nat.

Lemma open_inv d x : read_dictionary d = Ok x -> exists h g p q lx, header_from_bytes d 0 = Ok h /\ is_dictionary (h_version h) = true /\
  (if has_grammar (h_version h) then exists gr, prun d 0 (read_grammar d HEADER_SIZE) = (p, Ok gr) /\ g = Some gr else g = None) /\
  prun d p (read_lexicon d (HEADER_SIZE + storage g) (has_synonym_group_ids (h_version h))) = (q, Ok lx) /\ x = Dictionary g h lx.
Proof.
  unfold read_dictionary. destruct d as [|b d]; [discriminate|]. generalize (b :: d). clear b d. intros d H.
  apply bind_ok in H as (h & Hh & H). destruct (is_dictionary (h_version h)) eqn:ID; cbn [negb] in H; [|discriminate].
  destruct (has_grammar (h_version h)) eqn:HG.
  - destruct (prun d 0 (read_grammar d HEADER_SIZE)) as [p [gr|e]] eqn:G; cbn [bind] in H; [|discriminate].
    destruct (prun d p _) as [q [lx|e]] eqn:L in H; cbn [snd bind] in H; [|discriminate]. injection H as <-.
    exists h, (Some gr), p, q, lx. rewrite HG. split; [exact Hh|]. split; [exact ID|]. split; [exists gr; auto|]. split; [exact L|reflexivity].
  - cbn [bind] in H. destruct (prun d O _) as [q [lx|e]] eqn:L in H; cbn [snd bind] in H; [|discriminate]. injection H as <-.
    exists h, None, O, q, lx. rewrite HG. split; [exact Hh|]. split; [exact ID|]. split; [reflexivity|]. split; [exact L|reflexivity].
Qed.
Lemma cut_version n d h h' : header_from_bytes d 0 = Ok h -> header_from_bytes (firstn n d) 0 = Ok h' -> h_version h' = h_version h.
Proof.
  unfold header_from_bytes. intros H K.
  destruct (length (slice d 0 (0 + 16)) =? 16)%nat eqn:E; [|discriminate]. cbn [negb] in H. apply bind_ok in H as (? & _ & H). apply bind_ok in H as (? & _ & H). injection H as <-.
  destruct (length (slice (firstn n d) 0 (0 + 16)) =? 16)%nat eqn:E'; [|discriminate]. cbn [negb] in K. apply bind_ok in K as (? & _ & K). apply bind_ok in K as (? & _ & K). injection K as <-.
  cbn [h_version]. apply Nat.eqb_eq in E'. rewrite slice_length, firstn_length in E'. rewrite cut_slice by lia. reflexivity.
Qed.
Lemma cut_matrix n d o l r m m' : (n <= length d)%nat -> view_matrix d o l r = Ok m -> view_matrix (firstn n d) o l r = Ok m' -> m' = m.
Proof.
  unfold view_matrix. intros L H K. destruct (l * r =? 0) eqn:Z0; [congruence|]. destruct ((l <? 0) || (r <? 0)); [discriminate|].
  destruct (length (slice (firstn n d) _ _) =? _)%nat eqn:E'; [|discriminate]. destruct (length (slice d _ _) =? _)%nat eqn:E; [|discriminate].
  apply Nat.eqb_eq in E'. rewrite slice_length, cut_length in E' by lia.
  destruct (Nat.eq_dec (Z.to_nat (l * r)) 0) as [Q|Q]; [rewrite Q in *; rewrite slice_nil in H by lia; rewrite slice_nil in K by lia; congruence|].
  rewrite cut_slice in K by lia. congruence.
Qed.

(** ** A cut file that opens *)
Lemma cut_opens d x n y : read_dictionary d = Ok x -> (n <= length d)%nat -> read_dictionary (firstn n d) = Ok y ->
  (params_at x <= n)%nat /\ d_grammar y = d_grammar x /\ lx_trie (d_lexicon y) = lx_trie (d_lexicon x) /\ lx_wids (d_lexicon y) = lx_wids (d_lexicon x).
Proof.
  intros X LN Y. apply open_inv in X as (h & g & p & q & lx & Hh & _ & G & LX & ->). apply open_inv in Y as (h' & g' & p' & q' & lx' & Hh' & _ & G' & LX' & ->).
  assert (V := cut_version _ _ _ _ Hh Hh'). rewrite V in *. cbn [d_grammar d_lexicon] in *.
  apply lexicon_reach in LX as (R & T & W). apply lexicon_reach in LX' as (R' & T' & W'). cbv zeta in R, T, W, R', T', W'. rewrite cut_length in R' by lia.
  assert (GG : g' = g).
  { destruct (has_grammar (h_version h)); [|congruence]. destruct G as (gr & G & ->), G' as (gr' & G' & ->). f_equal.
    rewrite grammar_run in G, G'. destruct (Nat.leb_spec HEADER_SIZE (length d)) as [L|L]; [|discriminate]. rewrite cut_length in G' by lia. destruct (Nat.leb_spec HEADER_SIZE n) as [L'|L']; [|discriminate].
    assert (S := proj2 on_head d n HEADER_SIZE ltac:(lia)). assert (M := proj1 on_head (firstn n d) HEADER_SIZE). rewrite cut_length in M by lia. specialize (M L').
    destruct (prun d HEADER_SIZE grammar_head) as [a [((pos & l) & r)|e]]; [|discriminate]. destruct (prun (firstn n d) HEADER_SIZE grammar_head) as [a' [((pos' & l') & r')|e]]; [|discriminate]. cbn [fst] in M.
    destruct (view_matrix d a l r) as [m|] eqn:VM; [|discriminate]. destruct (view_matrix (firstn n d) a' l' r') as [m'|] eqn:VM'; [|discriminate].
    cbn [Nat.leb] in G, G'. injection G as _ <-. injection G' as _ <-.
    destruct S as [(-> & E & _)|[(e & E)|E]]; [|discriminate|].
    - injection E as -> -> ->. now rewrite (cut_matrix _ _ _ _ _ _ _ LN VM VM').
    - exfalso. cbn [storage g_storage] in R'. subst a'. clear - R' M. lia. }
  subst g'. set (o := (HEADER_SIZE + storage g)%nat) in *.
  assert (O4 : (o + 4 <= n)%nat) by lia.
  rewrite (cut_read n d o 4) in R', T', W' by lia. destruct (Nat.leb_spec (o + 4) n) as [_|Q]; [|lia].
  set (s := Z.to_nat (unle (firstn 4 (skipn o d)))) in *. set (o1 := (o + 4 + 4 * s)%nat) in *.
  assert (O14 : (o1 + 4 <= n)%nat) by lia.
  rewrite (cut_read n d o1 4) in R', W' by lia. destruct (Nat.leb_spec (o1 + 4) n) as [_|Q]; [|lia].
  set (n1 := Z.to_nat (unle (firstn 4 (skipn o1 d)))) in *.
  rewrite cut_slice in T' by lia. rewrite cut_slice in W' by lia. rewrite T, W, T', W'. unfold params_at. cbn [d_grammar d_lexicon]. rewrite T, W, !slice_length. fold o.
  split; [subst o1; lia|]. repeat split; reflexivity.
Qed.

(** ** C72 *)
(** A file that was cut anywhere before its list of word parameters is not opened. *)
Theorem C72_cut_partial d x n : read_dictionary d = Ok x ->
  (n < HEADER_SIZE + match d_grammar x with Some g => g_storage g | None => 0 end
       + 4 + length (lx_trie (d_lexicon x)) + 4 + length (lx_wids (d_lexicon x)))%nat ->
  exists e, read_dictionary (firstn n d) = Err e.
Proof.
  intros X L. destruct (Nat.le_gt_cases n (length d)) as [LN|LN].
  - destruct (read_dictionary (firstn n d)) as [y|e] eqn:Y; [|eauto]. exfalso.
    destruct (cut_opens _ _ _ _ X LN Y) as (Q & _). change (n < params_at x)%nat in L. lia.
  - exfalso. assert (Y := X). rewrite <- (firstn_all d) in Y. destruct (cut_opens _ _ _ _ X (Nat.le_refl _) Y) as (Q & _). change (n < params_at x)%nat in L. lia.
Qed.

(** A file that was cut later, and opens, has the whole grammar and finds the same
    words in every text. *)
Theorem C72_same_words_partial search d x n y : read_dictionary d = Ok x -> read_dictionary (firstn n d) = Ok y ->
  d_grammar y = d_grammar x /\ forall t o, lx_lookup search (d_lexicon y) t o = lx_lookup search (d_lexicon x) t o.
Proof.
  intros X Y. assert (H : d_grammar y = d_grammar x /\ lx_trie (d_lexicon y) = lx_trie (d_lexicon x) /\ lx_wids (d_lexicon y) = lx_wids (d_lexicon x)).
  { destruct (Nat.le_gt_cases n (length d)) as [LN|LN]; [exact (proj2 (cut_opens _ _ _ _ X LN Y))|].
    rewrite firstn_all2 in Y by lia. rewrite X in Y. injection Y as <-. auto. }
  destruct H as (G & T & W). split; [exact G|]. intros t o. unfold lx_lookup. now rewrite T, W.
Qed.
Print Assumptions C72_cut_partial.
Print Assumptions C72_same_words_partial.


(** The dictionary of Prop_Format.v, 1627 bytes long, cut after 388 bytes: it opens, and
    the surface and the reading of its first word are silently empty. *)
Theorem C72_cut_refuted : exists d x n y, read_dictionary d = Ok x /\ (n < length d)%nat /\ read_dictionary (firstn n d) = Ok y /\
  exists wi wi', lx_word_info 10 (d_lexicon x) 0 = Ok wi /\ lx_word_info 10 (d_lexicon y) 0 = Ok wi' /\
    wi_surface wi = [26481] /\ wi_surface wi' = [] /\ wi_reading wi' = [].
Proof.
  exists toy_bytes. destruct (read_dictionary toy_bytes) as [x|] eqn:X; [|vm_compute in X; discriminate].
  exists x, 388%nat. destruct (read_dictionary (firstn 388 toy_bytes)) as [y|] eqn:Y; [|vm_compute in Y; discriminate].
  exists y. split; [reflexivity|]. split; [apply Nat.ltb_lt; vm_compute; reflexivity|]. split; [reflexivity|].
  assert (E : (x <- read_dictionary toy_bytes ;; y <- read_dictionary (firstn 388 toy_bytes) ;; w <- lx_word_info 10 (d_lexicon x) 0 ;; w' <- lx_word_info 10 (d_lexicon y) 0 ;;
               Ok (wi_surface w, wi_surface w', wi_reading w')) = Ok ([26481], [], [])) by (vm_compute; reflexivity).
  rewrite X, Y in E. cbn [bind] in E. destruct (lx_word_info 10 (d_lexicon x) 0) as [wi|]; [|discriminate]. cbn [bind] in E. destruct (lx_word_info 10 (d_lexicon y) 0) as [wi'|]; [|discriminate]. cbn [bind] in E. injection E as E1 E2 E3.
  exists wi, wi'. auto.
Qed.
Print Assumptions C72_cut_refuted.

(** That dictionary opens, and its word parameters begin at byte 365. *)
Example C72_nonvacuous : exists x, read_dictionary toy_bytes = Ok x /\ params_at x = 365%nat /\ length toy_bytes = 1627%nat.
Proof.
  destruct (read_dictionary toy_bytes) as [x|] eqn:X; [|vm_compute in X; discriminate]. exists x. split; [reflexivity|].
  assert (E : (x <- read_dictionary toy_bytes ;; Ok (params_at x)) = Ok 365%nat) by (vm_compute; reflexivity). rewrite X in E. cbn [bind] in E.
  apply (f_equal (fun r => match r with Ok v => v | Err _ => O end)) in E.
  split; [exact E|]. vm_compute. reflexivity.
Qed.
