(** C56-C59: dictionary sources and versions. *)
From Coq Require Import List ZArith Lia Bool Arith Sorted.
From Verif Require Import Base Utf8 M_Builder M_Lattice M_Tokenizer M_Bytes P_Bytes M_DicReader M_DicBuilder S_Source P_DicFormat P_DicWrite P_DicOpen
  P_DicGrammar P_DicSource P_DicLexicon P_DicFile P_DicToy Prop_Format.
Import ListNotations.
Open Scope Z_scope.

(** ** C57 *)
Lemma is_hex_iff c : is_hex c = true <-> hex_digit c.
Proof.
  unfold is_hex, hex_value, hex_digit.
  destruct ((48 <=? c) && (c <=? 57)) eqn:A; [split; auto; intros _; Zbool; lia|].
  destruct ((97 <=? c) && (c <=? 102)) eqn:B; [split; auto; intros _; Zbool; lia|].
  destruct ((65 <=? c) && (c <=? 70)) eqn:C; [split; auto; intros _; Zbool; lia|].
  split; [discriminate|]. intros H. apply andb_false_iff in A, B, C. rewrite !Z.leb_gt in *. lia.
Qed.
Lemma forallb_hex h : forallb is_hex h = true <-> Forall hex_digit h.
Proof. rewrite forallb_forall, Forall_forall. split; intros H x Hx; apply is_hex_iff; auto. Qed.

Lemma hex_number_code h : Forall hex_digit h -> hex_number 0 h = code_point h.
Proof.
  unfold code_point. generalize 0. induction h as [|c h IH]; intros a F; [reflexivity|]. inversion F as [|? ? Hc F']; subst.
  cbn [hex_number fold_left]. rewrite IH by auto. f_equal. f_equal.
  unfold hex_value, digit_value, hex_digit in *.
  destruct (Z.leb_spec 48 c), (Z.leb_spec c 57), (Z.leb_spec 97 c), (Z.leb_spec c 102), (Z.leb_spec 65 c), (Z.leb_spec c 70); cbn [andb]; lia.
Qed.

Lemma take_hex_ok t : let '(h, s) := take_hex t in t = h ++ s /\ Forall hex_digit h /\ (forall c r, s = c :: r -> ~ hex_digit c).
Proof.
  induction t as [|c t IH]; cbn [take_hex]; [repeat split; auto; discriminate|].
  destruct (is_hex c) eqn:E.
  - destruct (take_hex t) as [h s]. destruct IH as (-> & F & N). repeat split; auto. constructor; auto. now apply is_hex_iff.
  - repeat split; auto. intros c' r [= <- <-] H. apply is_hex_iff in H. congruence.
Qed.
Lemma take_hex_app h c s : Forall hex_digit h -> ~ hex_digit c -> take_hex (h ++ c :: s) = (h, c :: s).
Proof.
  induction h as [|x h IH]; intros F N; cbn [app take_hex].
  - destruct (is_hex c) eqn:E; auto. apply is_hex_iff in E. tauto.
  - inversion F; subst. replace (is_hex x) with true by (symmetry; now apply is_hex_iff). rewrite IH; auto.
Qed.

Lemma match_escape_sound t h s : match_escape t = Some (h, s) -> escape t h s.
Proof.
  unfold match_escape. intros H.
  repeat match type of H with
  | match ?x with _ => _ end = _ => first [is_var x; destruct x; try discriminate H]
  end.
  destruct ((length (firstn 4 t) =? 4)%nat && forallb is_hex (firstn 4 t)) eqn:E.
  - injection H as <- <-. apply andb_true_iff in E as [E1 E2]. apply Nat.eqb_eq in E1. apply forallb_hex in E2.
    rewrite <- (firstn_skipn 4 t) at 1. now constructor.
  - repeat match type of H with
    | match ?x with _ => _ end = _ => first [is_var x; destruct x; try discriminate H]
    end.
    match type of H with context [take_hex ?x] => pose proof (take_hex_ok x) as T; destruct (take_hex x) as [h0 s0] end.
    destruct T as (-> & F & _). destruct h0 as [|c h0]; [discriminate|].
    repeat match type of H with
    | match ?x with _ => _ end = _ => first [is_var x; destruct x; try discriminate H]
    end.
    injection H as <- <-. constructor; [discriminate|auto].
Qed.
Lemma match_escape_complete t h s : escape t h s -> match_escape t = Some (h, s).
Proof.
  intros [h' s' L F|h' s' N F]; unfold match_escape.
  - rewrite <- L, firstn_exact, skipn_exact by reflexivity. rewrite Nat.eqb_refl. cbn [andb].
    replace (forallb is_hex h') with true by (symmetry; now apply forallb_hex). reflexivity.
  - assert (X : forallb is_hex (firstn 4 (123 :: h' ++ 125 :: s')) = false) by reflexivity.
    rewrite X, andb_false_r. rewrite take_hex_app; [|auto|unfold hex_digit; lia]. destruct h'; [congruence|reflexivity].
Qed.

Lemma escape_fun t h s h' s' : escape t h s -> escape t h' s' -> h = h' /\ s = s'.
Proof. intros A B. apply match_escape_complete in A, B. rewrite A in B. injection B as <- <-. auto. Qed.
Lemma escape_shorter t h s : escape t h s -> (length s < length t)%nat.
Proof. intros [h' s' L F|h' s' N F]; cbn [length]; rewrite app_length; cbn [length]; lia. Qed.

(** Escapes of four digits, with or without braces, and of five digits *)
Theorem C57_four_or_five_partial t r :
  decoded (fun n => n = 4%nat \/ n = 5%nat) t r -> unescape t = Ok r.
Proof.
  unfold unescape. generalize (le_n (length t)). generalize (length t) at 2 3 as n. intros n Hn D. revert n Hn.
  induction D as [|t h s r E G C D IH|c s r N D IH]; intros n Hn.
  - destruct n; reflexivity.
  - pose proof (escape_shorter _ _ _ E) as L. destruct n as [|n]; [lia|]. cbn [unescape_fuel].
    rewrite (match_escape_complete _ _ _ E).
    assert (F : Forall hex_digit h) by (destruct E; auto).
    unfold replace_escape. destruct G as [G|G]; rewrite G; cbn [Nat.ltb Nat.leb Nat.eqb bind].
    + rewrite IH by lia. cbn [bind app]. now rewrite hex_number_code.
    + rewrite IH by lia. rewrite <- G, firstn_all, skipn_all. cbn [bind app]. now rewrite hex_number_code.
  - cbn [length] in Hn. destruct n as [|n]; [lia|]. cbn [unescape_fuel].
    destruct (match_escape (c :: s)) as [[h s']|] eqn:M; [apply match_escape_sound in M; destruct (N _ _ M)|].
    rewrite IH by lia. reflexivity.
Qed.
Print Assumptions C57_four_or_five_partial.

(** Text without escapes is kept. *)
Theorem C57_kept_partial t : (forall a b h s, t = a ++ b -> ~ escape b h s) -> unescape t = Ok t.
Proof.
  intros H. apply C57_four_or_five_partial. induction t as [|c t IH]; constructor.
  - intros h s. apply (H []). reflexivity.
  - apply IH. intros a b h s ->. now apply (H (c :: a)).
Qed.
Print Assumptions C57_kept_partial.

(** \u{41} is an error, \u{10FFFD} becomes two characters. *)
Theorem C57_two_digits_refuted : exists t r, decoded (fun n => 0 < n)%nat t r /\ r = [65] /\ unescape t = Err EUnicode.
Proof.
  exists [92; 117; 123; 52; 49; 125], [65]. split; [|split; vm_compute; reflexivity].
  change [65] with [code_point [52; 49]]. eapply D_escape with (s := []); [|cbn; lia|vm_compute; discriminate|constructor].
  apply (E_braces [52; 49] []); [discriminate|]. repeat constructor; unfold hex_digit; lia.
Qed.
Theorem C57_six_digits_refuted : exists t r, decoded (fun n => 0 < n)%nat t r /\ r = [0x10FFFD] /\ unescape t = Ok [0x10FFF; 68].
Proof.
  exists [92; 117; 123; 49; 48; 70; 70; 70; 68; 125], [0x10FFFD]. split; [|split; vm_compute; reflexivity].
  change [0x10FFFD] with [code_point [49; 48; 70; 70; 70; 68]]. eapply D_escape with (s := []); [|cbn; lia|vm_compute; discriminate|constructor].
  apply (E_braces [49; 48; 70; 70; 70; 68] []); [discriminate|]. repeat constructor; unfold hex_digit; lia.
Qed.
Print Assumptions C57_two_digits_refuted.
Print Assumptions C57_six_digits_refuted.

(** a東\u{20BB7}b *)
Example C57_nonvacuous :
  decoded (fun n => n = 4%nat \/ n = 5%nat)
    [97; 92; 117; 54; 55; 55; 49; 92; 117; 123; 50; 48; 66; 66; 55; 125; 98] [97; 0x6771; 0x20BB7; 98].
Proof.
  apply D_plain; [intros h s H; inversion H|].
  change 0x6771 with (code_point [54; 55; 55; 49]). eapply D_escape; [apply (E_four [54; 55; 55; 49]); [reflexivity|]|auto|vm_compute; discriminate|].
  { repeat constructor; unfold hex_digit; lia. }
  change 0x20BB7 with (code_point [50; 48; 66; 66; 55]). eapply D_escape; [apply (E_braces [50; 48; 66; 66; 55]); [discriminate|]|auto|vm_compute; discriminate|].
  { repeat constructor; unfold hex_digit; lia. }
  apply D_plain; [intros h s H; inversion H|]. constructor.
Qed.

(** ** C56 *)
Section splits.
Variable k : kind.
Variable py_int : text -> res Z.
Variable is_digit : Z -> bool.
(** [get_word_id] of the system lexicon does not answer with an id that it does not have. *)
Definition system_ids (k : kind) : Prop :=
  match k with
  | SystemDic => True
  | UserDic _ sys_id sys_size => forall h p r id, sys_id h p r = Ok id -> id < Z.of_nat sys_size
  end.

(** An id in split information: of an entry of the dictionary itself or, in a user dictionary
    and below 2^28, of the system dictionary *)
Definition denotes (k : kind) (entries : list entry) (id : Z) : Prop :=
  match k with
  | SystemDic => 0 <= id < Z.of_nat (length entries)
  | UserDic _ _ sys_size => 0 <= id < Z.of_nat sys_size \/ (2 ^ 28 <= id /\ id mod 2 ^ 28 < Z.of_nat (length entries))
  end.

Lemma index_of_ok {A} (eqb : A -> A -> bool) l a i : index_of eqb l a = Some i -> exists x, nth_error l i = Some x /\ eqb x a = true.
Proof.
  revert i. induction l as [|x l IH]; intros i H; [discriminate|]. cbn [index_of] in H. destruct (eqb x a) eqn:E.
  - injection H as <-. exists x. auto.
  - destruct (index_of eqb l a) as [j|]; [|discriminate]. injection H as <-. apply IH. reflexivity.
Qed.

Lemma own_wordid_ok entries h p r : 0 <= own_wordid entries h p r ->
  exists i e, own_wordid entries h p r = Z.of_nat i /\ nth_error entries i = Some e /\ e_surface e = h /\ e_pos e = p /\ e_reading e = r.
Proof.
  unfold own_wordid. destruct (index_of _ _ _) as [i|] eqn:E; [|lia]. intros _.
  apply index_of_ok in E as (e & He & X). apply andb_true_iff in X as [X X3]. apply andb_true_iff in X as [X1 X2].
  apply teqb_eq in X1, X3. apply Z.eqb_eq in X2. exists i, e. auto.
Qed.

Lemma lor_28 z : 0 <= z -> 2 ^ 28 <= Z.lor z (2 ^ 28) /\ Z.lor z (2 ^ 28) mod 2 ^ 28 = z mod 2 ^ 28.
Proof.
  intros H. assert (M : Z.lor z (2 ^ 28) mod 2 ^ 28 = z mod 2 ^ 28).
  { rewrite <- !Z.land_ones by lia. rewrite Z.land_lor_distr_l. change (Z.land (2 ^ 28) (Z.ones 28)) with 0. apply Z.lor_0_r. }
  split; auto.
  assert (D : 1 <= Z.lor z (2 ^ 28) / 2 ^ 28).
  { rewrite <- Z.shiftr_div_pow2 by lia. rewrite Z.shiftr_lor. change (Z.shiftr (2 ^ 28) 28) with 1.
    pose proof (proj2 (Z.lor_nonneg (Z.shiftr z 28) 1)) as N.
    assert (0 <= Z.shiftr z 28) by (apply Z.shiftr_nonneg; lia).
    specialize (N ltac:(lia)). destruct (Z.eq_dec (Z.lor (Z.shiftr z 28) 1) 0) as [E|E]; [|lia]. apply Z.lor_eq_0_iff in E. lia. }
  pose proof (Z.div_mod (Z.lor z (2 ^ 28)) (2 ^ 28) ltac:(lia)). pose proof (Z.mod_pos_bound (Z.lor z (2 ^ 28)) (2 ^ 28) ltac:(lia)). lia.
Qed.

Lemma parse_unit_ok entries table t id table' :
  system_ids k -> parse_unit k py_int is_digit entries table t = Ok (id, table') -> denotes k entries id.
Proof.
  intros SI. unfold parse_unit. destruct (is_id is_digit t); intros H.
  - apply bind_ok in H as (x & Hx & H). injection H as <- <-. unfold parse_id in Hx. apply bind_ok in Hx as (y & _ & Hx).
    apply bind_ok in Hx as (u & Hc & Hx). injection Hx as <-. unfold check_wordid in Hc. unfold denotes. destruct k as [|g sys_id n].
    + destruct ((y <? 0) || _) eqn:E; [discriminate|]. apply orb_false_iff in E as [E1 E2]. Zbool. lia.
    + change (Z.shiftl 1 28) with (2 ^ 28) in Hc. destruct (2 ^ 28 <=? y) eqn:E0.
      * right. Zbool. split; [lia|]. rewrite <- Z.land_ones by lia. change (Z.ones 28) with (2 ^ 28 - 1).
        destruct ((Z.land y (2 ^ 28 - 1) <? 0) || _) eqn:E; [discriminate|]. apply orb_false_iff in E as [E1 E2]. Zbool. lia.
      * left. destruct ((y <? 0) || _) eqn:E; [discriminate|]. apply orb_false_iff in E as [E1 E2]. Zbool. lia.
  - apply bind_ok in H as ((x & tb) & Hx & H). destruct (x <? 0) eqn:E; [discriminate|]. injection H as <- <-. Zbool.
    unfold word_to_id in Hx. destruct (_ <? 8)%nat; [discriminate|]. apply bind_ok in Hx as (h & _ & Hx).
    destruct (get_posid k table _) as [pos tb']. destruct (pos <? 0); [discriminate|].
    apply bind_ok in Hx as (r & _ & Hx). apply bind_ok in Hx as (wid & Hw & Hx). injection Hx as <- <-.
    unfold get_wordid in Hw. unfold denotes. destruct k as [|g sys_id n].
    + injection Hw as <-. destruct (own_wordid_ok entries h pos r ltac:(lia)) as (i & e & -> & Hi & _).
      assert (i < length entries)%nat by (apply nth_error_Some; congruence). lia.
    + destruct (0 <=? own_wordid entries h pos r) eqn:E0.
      * right. Zbool. destruct (own_wordid_ok entries h pos r ltac:(lia)) as (i & e & Ew & Hi & _). rewrite Ew in Hw.
        assert (wid = Z.lor (Z.of_nat i) (2 ^ 28)) as -> by (change (Z.shiftl 1 28) with (2 ^ 28) in Hw; congruence).
        destruct (lor_28 (Z.of_nat i) ltac:(lia)) as [L M]. rewrite M. split; auto.
        assert (i < length entries)%nat by (apply nth_error_Some; congruence).
        pose proof (Z.mod_le (Z.of_nat i) (2 ^ 28) ltac:(lia) ltac:(lia)). lia.
      * left. split; [lia|]. eapply SI; eauto.
Qed.

(** Every id that split information is translated to denotes an entry. *)
Theorem C56_never_dangles entries table info ids table' :
  system_ids k -> parse_splitinfo k py_int is_digit entries table info = Ok (ids, table') -> Forall (denotes k entries) ids.
Proof.
  intros SI. unfold parse_splitinfo. destruct (teqb info star); [intros [= <- <-]; constructor|].
  destruct (_ <? _)%nat; [discriminate|]. generalize (split_on slash info) as l. intros l. revert ids table table'.
  induction l as [|t l IH]; intros ids table table' H; cbn [parse_units] in H; [injection H as <- <-; constructor|].
  apply bind_ok in H as ((id & tb) & H1 & H). apply bind_ok in H as ((ids' & tb') & H2 & H). injection H as <- <-.
  constructor; [eapply parse_unit_ok; eauto|eapply IH; eauto].
Qed.

(** A reference by headword, part of speech and reading: the first such entry of the
    dictionary itself, if there is one *)
Theorem C56_word_reference entries table t id table' headword reading :
  is_id is_digit t = false -> parse_unit k py_int is_digit entries table t = Ok (id, table') ->
  unescape (nth 0 (split_on comma t) []) = Ok headword -> unescape (nth 7 (split_on comma t) []) = Ok reading ->
  let pos := fst (get_posid k table (slice (split_on comma t) 1 7)) in
  (exists i e, nth_error entries i = Some e /\ e_surface e = headword /\ e_pos e = pos /\ e_reading e = reading /\
     id = (match k with SystemDic => Z.of_nat i | UserDic _ _ _ => Z.lor (Z.of_nat i) (2 ^ 28) end)) \/
  (exists g sys_id n, k = UserDic g sys_id n /\ sys_id headword pos reading = Ok id /\ 0 <= id).
Proof.
  intros NI H Hh Hr. cbn zeta. unfold parse_unit in H. rewrite NI in H.
  apply bind_ok in H as ((x & tb) & Hx & H). destruct (x <? 0) eqn:E; [discriminate|]. injection H as <- <-. Zbool.
  unfold word_to_id in Hx. destruct (_ <? 8)%nat; [discriminate|]. rewrite Hh in Hx. cbn [bind] in Hx.
  destruct (get_posid k table _) as [pos tb']. cbn [fst]. destruct (pos <? 0); [discriminate|].
  rewrite Hr in Hx. cbn [bind] in Hx. apply bind_ok in Hx as (wid & Hw & Hx). injection Hx as <- <-.
  unfold get_wordid in Hw. destruct k as [|g sys_id n].
  - injection Hw as <-. destruct (own_wordid_ok entries headword pos reading ltac:(lia)) as (i & e & Ew & Hi & A & B & C). left. exists i, e. auto 6.
  - destruct (0 <=? own_wordid entries headword pos reading) eqn:E0.
    + Zbool. destruct (own_wordid_ok entries headword pos reading ltac:(lia)) as (i & e & Ew & Hi & A & B & C). left. exists i, e.
      rewrite Ew in Hw. repeat (split; [solve [auto]|]). change (Z.shiftl 1 28) with (2 ^ 28) in Hw. congruence.
    + right. exists g, sys_id, n. auto.
Qed.
End splits.
Print Assumptions C56_never_dangles.
Print Assumptions C56_word_reference.

(** 0/1, and a reference by word, in the three-word source; 3 is rejected *)
Example C56_nonvacuous :
  let info := [48; slash] ++ join_with comma ([[20140]] ++ P2 ++ [[20140]]) in
  (exists t, parse_splitinfo SystemDic toy_int toy_digit (s_entries toy_source) (s_table toy_source) info = Ok ([0; 1], t)) /\
  parse_splitinfo SystemDic toy_int toy_digit (s_entries toy_source) (s_table toy_source) [51] = Err EValue.
Proof. split; [eexists; vm_compute; reflexivity|vm_compute; reflexivity]. Qed.
Example C56_user_nonvacuous :
  let k := UserDic (Grammar [P1; P2] 0 0 [] 0) (fun h p r => if teqb h [20140] then Ok 7 else Ok (-1)) 8 in
  system_ids k /\
  exists t, parse_splitinfo k toy_int toy_digit (s_entries toy_source) [] ([85; 50; slash; 53; slash] ++ join_with comma ([[20140]] ++ P2 ++ [[9]])) = Ok ([2 ^ 28 + 2; 5; 7], t).
Proof.
  split; [|eexists; vm_compute; reflexivity]. intros h p r id H. destruct (teqb h [20140]); injection H as <-; lia.
Qed.

(** In the opened dictionary: the splits of each word name words that it has (or, in a user
    dictionary, words of the system dictionary). *)
Theorem C56_read_back k py_int is_digit search trie_array now description rows ms d s limit n i e :
  trie_contract search trie_array -> system_ids k ->
  build_command k py_int is_digit trie_array now description rows ms = Ok d -> 0 <= now -> ~ In 0 description ->
  build_lexicon k py_int new_source rows = Ok s ->
  Forall readable_pos (s_table s) -> (forall m, matrix_written k ms = Some m -> exists n, has_matrix n m) ->
  Forall (fun e => Z.of_nat (length (units (e_surface e))) < 32768 /\ Z.of_nat (length (units (e_norm e))) < 32768 /\
                   Z.of_nat (length (units (e_reading e))) < 32768) (s_entries s) ->
  nth_error (s_entries s) i = Some e -> chain_ends (s_entries s) n i -> (n <= limit)%nat ->
  exists dict wi, read_dictionary d = Ok dict /\ lx_word_info limit (d_lexicon dict) (Z.of_nat i) = Ok wi /\
    Forall (denotes k (s_entries s)) (wi_a wi ++ wi_b wi ++ wi_struct wi).
Proof.
  intros C SI H T N Hs R M U Hi Ch L.
  destruct (C51_word_infos_partial _ _ _ _ _ C _ _ _ _ _ _ _ _ _ _ H T N Hs R M U Hi Ch L)
    as (dict & wi & t1 & t2 & t3 & t4 & E1 & E2 & _ & _ & _ & _ & _ & _ & _ & _ & P1' & P2' & P3' & _).
  exists dict, wi. split; [auto|]. split; [auto|].
  repeat (apply Forall_app; split); eapply C56_never_dangles; eauto.
Qed.
Print Assumptions C56_read_back.

(** ** C58 *)
(** What makes the (decoded) columns of a row wrong *)
Definition slashes (t : text) : nat := count_occ Z.eq_dec t 47.
Definition bad_columns (cs : list text) : Prop :=
  let col i := nth i cs [] in
  col 0%nat = [] \/
  (exists b, encode (col 0%nat) = Ok b /\ 32767 < Z.of_nat (length b)) \/
  (exists i, In i [4; 11; 12]%nat /\ 32767 < Z.of_nat (length (col i))) \/
  (exists i, In i [15; 16; 17]%nat /\ (127 < slashes (col i) + 1)%nat) \/
  (col 14%nat = [65] /\ (col 15%nat <> [42] \/ col 16%nat <> [42])).

Definition value_error (e : exn) : Prop := e = EValue \/ e = EUnicode.

Lemma slashes_filter t : length (filter (Z.eqb slash) t) = slashes t.
Proof.
  unfold slashes, slash. induction t as [|c t IH]; [reflexivity|]. cbn [filter count_occ].
  destruct (Z.eqb_spec 47 c) as [<-|N].
  - destruct (Z.eq_dec 47 47); [|congruence]. cbn [length]. now rewrite IH.
  - destruct (Z.eq_dec c 47); [congruence|]. exact IH.
Qed.

Lemma unescape_errors n t e : unescape_fuel n t = Err e -> e = EUnicode.
Proof.
  revert t. induction n as [|n IH]; intros t H; [discriminate|]. cbn [unescape_fuel] in H.
  destruct (match_escape t) as [[h s]|].
  - unfold replace_escape in H. destruct (length h <? 4)%nat; [cbn in H; congruence|].
    destruct (length h =? 4)%nat; cbn [bind] in H; (destruct (unescape_fuel n s) eqn:E; cbn [bind] in H; [discriminate|]); injection H as ->; eauto.
  - destruct t as [|c r]; [discriminate|]. destruct (unescape_fuel n r) eqn:E; cbn [bind] in H; [discriminate|]. injection H as ->. eauto.
Qed.
Lemma mapM_errors {A B} (f : A -> res B) (P : exn -> Prop) l e : (forall x e, f x = Err e -> P e) -> mapM f l = Err e -> P e.
Proof.
  intros F. revert e. induction l as [|x l IH]; intros e H; [discriminate|]. cbn [mapM] in H.
  destruct (f x) eqn:E; cbn [bind] in H; [|injection H as <-; eauto].
  destruct (mapM f l) eqn:E'; cbn [bind] in H; [discriminate|]. injection H as <-. eauto.
Qed.
Lemma mapM_Forall2 {A B} (f : A -> res B) l l' : mapM f l = Ok l' -> Forall2 (fun x y => f x = Ok y) l l'.
Proof.
  revert l'. induction l as [|x l IH]; intros l' H; cbn [mapM] in H; [injection H as <-; constructor|].
  apply bind_ok in H as (y & Hy & H). apply bind_ok in H as (ys & Hys & H). injection H as <-. constructor; auto.
Qed.
Lemma encode_errors t e : encode t = Err e -> e = EUnicode.
Proof.
  induction t as [|c t IH]; cbn [encode]; [discriminate|]. destruct (is_scalar c); [|congruence].
  destruct (encode t); cbn [bind]; [discriminate|]. auto.
Qed.

Section rows.
Variable k : kind.
Variable py_int : text -> res Z.
(** [int(s)] raises nothing but ValueError. *)
Hypothesis int_errors : forall t e, py_int t = Err e -> e = EValue.

(** A row that is accepted has none of the faults, and the entry carries its columns. *)
Theorem C58_accepted table cols e table' :
  parse_line k py_int table cols = Ok (e, table') ->
  (18 <= length cols)%nat /\
  exists cs, Forall2 (fun c c' => unescape c = Ok c') cols cs /\ ~ bad_columns cs /\
    let col i := nth i cs [] in
    e_headword e = (if teqb (col 1%nat) [45; 49] then None else Some (col 0%nat)) /\
    py_int (col 1%nat) = Ok (e_left e) /\ py_int (col 2%nat) = Ok (e_right e) /\ py_int (col 3%nat) = Ok (e_cost e) /\
    e_surface e = col 4%nat /\ e_reading e = col 11%nat /\ e_norm e = col 12%nat /\
    (exists b, encode (col 0%nat) = Ok b /\ e_head_length e = length b) /\
    (col 13%nat = [42] -> e_dic_id e = -1) /\ (col 13%nat <> [42] -> py_int (col 13%nat) = Ok (e_dic_id e)) /\
    e_a e = col 15%nat /\ e_b e = col 16%nat /\ e_c e = col 17%nat /\
    (length cols = 18%nat \/ col 18%nat = [42] -> e_syn e = []) /\
    ((18 < length cols)%nat -> col 18%nat <> [42] -> Forall2 (fun t z => py_int t = Ok z) (split_on slash (col 18%nat)) (e_syn e)) /\
    0 <= e_pos e.
Proof.
  unfold parse_line. destruct (length cols <? 18)%nat eqn:L; [discriminate|]. apply Nat.ltb_ge in L. intros H. split; [exact L|].
  apply bind_ok in H as (cs & Hc & H). pose proof (mapM_ok_length _ _ _ Hc) as Lc. apply mapM_Forall2 in Hc. exists cs. split; [exact Hc|].
  apply bind_ok in H as (head & Hh & H). cbv zeta in H.
  destruct (is_length_valid head (nth 4 cs []) (nth 11 cs []) (nth 12 cs [])) eqn:V; cbn [negb] in H; [|discriminate].
  unfold is_length_valid, STRING_MAX_LENGTH in V. apply andb_true_iff in V as [V V4]. apply andb_true_iff in V as [V V3]. apply andb_true_iff in V as [V1 V2].
  apply Z.leb_le in V1, V2, V3, V4.
  destruct (nth 0 cs []) as [|c0 h0] eqn:E0; [discriminate|]. rewrite <- E0 in *.
  apply bind_ok in H as (left & Hl & H). apply bind_ok in H as (right & Hr & H). apply bind_ok in H as (cost & Hk & H).
  destruct (get_posid k table (slice cs 5 11)) as [pos tb]. destruct (pos <? 0) eqn:P; [discriminate|]. Zbool.
  apply bind_ok in H as (? & S1 & H). apply bind_ok in H as (? & S2 & H). apply bind_ok in H as (? & S3 & H).
  assert (SL : forall t u, check_splitinfo_format t = Ok u -> (slashes t + 1 <= 127)%nat).
  { intros t u. unfold check_splitinfo_format, ARRAY_MAX_LENGTH. rewrite slashes_filter.
    destruct (Nat.ltb_spec 127 (slashes t + 1)); [discriminate|auto]. }
  apply SL in S1, S2, S3.
  destruct (teqb (nth 14 cs []) [65] && negb _) eqn:A; [discriminate|].
  apply bind_ok in H as (syn & Hsyn & H). apply bind_ok in H as (did & Hd & H).
  match type of H with Ok (?x, _) = Ok _ => assert (Ee : e = x) by congruence end. clear H. rewrite Ee.
  cbv zeta. cbn [e_headword e_left e_right e_cost e_surface e_reading e_norm e_head_length e_dic_id e_a e_b e_c e_syn e_pos].
  split.
  { intros [B|[(b & B1 & B2)|[(i & Bi & B)|[(i & Bi & B)|(B1 & B2)]]]].
    - congruence.
    - rewrite Hh in B1. injection B1 as <-. lia.
    - cbn [In] in Bi. destruct Bi as [<-|[<-|[<-|[]]]]; lia.
    - cbn [In] in Bi. destruct Bi as [<-|[<-|[<-|[]]]]; lia.
    - apply teqb_eq in B1. rewrite B1 in A. cbn [andb] in A. apply negb_false_iff, andb_true_iff in A as [A1 A2].
      apply teqb_eq in A1, A2. unfold star in *. tauto. }
  rewrite E0. split; [reflexivity|]. rewrite <- E0.
  repeat (split; [solve [auto]|]). split; [eauto|]. split.
  { intros B. rewrite B in Hd. change (teqb [42] star) with true in Hd. cbn in Hd. congruence. }
  split.
  { intros B. destruct (teqb (nth 13 cs []) star) eqn:T; [apply teqb_eq in T; tauto|auto]. }
  repeat (split; [reflexivity|]). split; [|split; [|lia]].
  { intros [B|B].
    - rewrite <- Lc in B. rewrite B in Hsyn. cbn in Hsyn. congruence.
    - destruct (18 <? length cs)%nat; [|congruence]. unfold parse_synonym_group_ids in Hsyn. rewrite B in Hsyn. change (teqb [42] star) with true in Hsyn. cbn in Hsyn. congruence. }
  { intros B1 B2. rewrite <- Lc in B1. replace (18 <? length cs)%nat with true in Hsyn by (symmetry; now apply Nat.ltb_lt).
    unfold parse_synonym_group_ids in Hsyn. destruct (teqb (nth 18 cs []) star) eqn:T; [apply teqb_eq in T; unfold star in T; congruence|].
    destruct (_ <? _)%nat; [discriminate|]. now apply mapM_Forall2 in Hsyn. }
Qed.

(** Every other row is a ValueError (UnicodeError is one). *)
Theorem C58_errors table cols e : parse_line k py_int table cols = Err e -> value_error e.
Proof.
  unfold parse_line, value_error. intros H. destruct (length cols <? 18)%nat; [left; congruence|].
  destruct (mapM unescape cols) as [cs|e1] eqn:E1; cbn [bind] in H.
  2: { injection H as <-. right. eapply (mapM_errors _ (fun e => e = EUnicode)); [|exact E1]. intros x e2. apply unescape_errors. }
  cbv zeta in H. destruct (encode (nth 0 cs [])) as [head|e1] eqn:E2; cbn [bind] in H.
  2: { injection H as <-. right. eapply encode_errors; eauto. }
  left. destruct (negb _); [congruence|]. destruct (nth 0 cs []); [congruence|].
  repeat (match type of H with
          | bind (py_int ?x) _ = _ => let E := fresh "E" in destruct (py_int x) eqn:E; cbn [bind] in H; [|injection H as <-; eauto]
          end).
  destruct (get_posid k table (slice cs 5 11)) as [pos tb]. destruct (pos <? 0); [congruence|].
  assert (SL : forall t e, check_splitinfo_format t = Err e -> e = EValue).
  { clear. intros t e. unfold check_splitinfo_format. destruct (ARRAY_MAX_LENGTH <? length (filter (Z.eqb slash) t) + 1)%nat; congruence. }
  repeat (match type of H with
          | bind (check_splitinfo_format ?x) _ = _ => let E := fresh "E" in destruct (check_splitinfo_format x) eqn:E; cbn [bind] in H; [|injection H as <-; eauto]
          end).
  destruct (_ && _); [congruence|].
  match type of H with bind ?m _ = _ => destruct m as [syn|e3] eqn:Es; cbn [bind] in H end.
  2: { injection H as <-. destruct (18 <? length cs)%nat; [|discriminate]. unfold parse_synonym_group_ids in Es.
       destruct (teqb _ _); [discriminate|]. destruct (_ <? _)%nat; [congruence|].
       eapply (mapM_errors _ (fun e => e = EValue)); [|exact Es]. exact int_errors. }
  match type of H with bind ?m _ = _ => destruct m as [did|e4] eqn:Ed; cbn [bind] in H end; [discriminate|].
  injection H as <-. destruct (teqb _ _); [discriminate|eauto].
Qed.

(** So each fault makes it one. *)
Theorem C58_rejected table cols :
  (length cols < 18)%nat \/ (forall cs, Forall2 (fun c c' => unescape c = Ok c') cols cs -> bad_columns cs) ->
  exists e, parse_line k py_int table cols = Err e /\ value_error e.
Proof.
  intros H. destruct (parse_line k py_int table cols) as [(e, table')|e] eqn:E; [|exists e; split; [auto|eapply C58_errors; eauto]].
  exfalso. apply C58_accepted in E as (L & cs & F & B & _). destruct H as [H|H]; [lia|auto].
Qed.

(** The part of speech of an accepted row is the one with its six columns: in the builder's
    table, or in the system dictionary's. *)
Theorem C58_part_of_speech table cols e table' :
  parse_line k py_int table cols = Ok (e, table') ->
  exists cs, Forall2 (fun c c' => unescape c = Ok c') cols cs /\
    let own i := nth_error table' i = Some (join_with comma (slice cs 5 11)) in
    (forall i x, nth_error table i = Some x -> nth_error table' i = Some x) /\
    match k with
    | SystemDic => own (Z.to_nat (e_pos e))
    | UserDic g _ _ =>
      (0 <= e_pos e < Z.of_nat (length (g_pos g)) /\ nth_error (g_pos g) (Z.to_nat (e_pos e)) = Some (slice cs 5 11)) \/
      (Z.of_nat (length (g_pos g)) <= e_pos e /\ ~ In (slice cs 5 11) (g_pos g) /\ own (Z.to_nat (e_pos e) - length (g_pos g))%nat)
    end.
Proof.
  unfold parse_line. destruct (length cols <? 18)%nat eqn:L; [discriminate|]. intros H.
  apply bind_ok in H as (cs & Hc & H). apply mapM_Forall2 in Hc. exists cs. split; [exact Hc|].
  apply bind_ok in H as (head & Hh & H). cbv zeta in H.
  destruct (negb _); [discriminate|]. destruct (nth 0 cs []) as [|c0 h0] eqn:E0; [discriminate|].
  apply bind_ok in H as (left & Hl & H). apply bind_ok in H as (right & Hr & H). apply bind_ok in H as (cost & Hk & H).
  destruct (get_posid k table (slice cs 5 11)) as [pos tb] eqn:G. destruct (pos <? 0) eqn:P; [discriminate|]. Zbool.
  apply bind_ok in H as (u1 & S1 & H). apply bind_ok in H as (u2 & S2 & H). apply bind_ok in H as (u3 & S3 & H).
  destruct (_ && _); [discriminate|].
  apply bind_ok in H as (syn & Hsyn & H). apply bind_ok in H as (did & Hd & H).
  match type of H with Ok (?x, _) = Ok _ => assert (Ee : e_pos e = e_pos x) by congruence end. assert (table' = tb) by congruence. subst tb. clear H.
  cbn [e_pos] in Ee. rewrite Ee. clear Ee. cbv zeta.
  assert (T : forall s i t, table_id table s = (i, t) -> 0 <= i /\ nth_error t (Z.to_nat i) = Some s /\ forall j x, nth_error table j = Some x -> nth_error t j = Some x).
  { intros s i t. unfold table_id. destruct (index_of teqb table s) as [j|] eqn:I.
    - intros [= <- <-]. apply index_of_ok in I as (x & Hx & Ex). apply teqb_eq in Ex as ->. rewrite Nat2Z.id. split; [lia|auto].
    - intros [= <- <-]. rewrite Nat2Z.id. split; [lia|]. split; [rewrite nth_error_app2, Nat.sub_diag by lia; reflexivity|].
      intros j x Hj. rewrite nth_error_app1; auto. apply nth_error_Some. congruence. }
  unfold get_posid in G. destruct k as [|g sys n].
  - apply T in G as (_ & G1 & G2). auto.
  - unfold get_part_of_speech_id in G. cbv zeta in G.
    match type of G with context [index_of ?f ?l ?a] => destruct (index_of f l a) as [j|] eqn:I end;
      change (list_eqb (list_eqb Z.eqb)) with (list_eqb teqb) in I.
    + replace (Z.of_nat j <? 0) with false in G by (symmetry; apply Z.ltb_ge; lia). assert (pos = Z.of_nat j) as -> by congruence. assert (table' = table) as -> by congruence. clear G. split; [auto|]. left.
      apply index_of_ok in I as (x & Hx & Ex). rewrite Nat2Z.id.
      assert (j < length (g_pos g))%nat by (apply nth_error_Some; intros X; discriminate (eq_trans (eq_sym Hx) X)).
      split; [lia|]. refine (eq_trans Hx _). f_equal.
      clear - Ex. revert Ex. generalize (slice cs 5 11) as y. induction x as [|a x IH]; intros [|b y] Ex; try discriminate; [reflexivity|].
      cbn [list_eqb] in Ex. apply andb_true_iff in Ex as [E1 E2]. apply teqb_eq in E1 as ->. f_equal. auto.
    + change (-1 <? 0) with true in G. destruct (table_id table (join_with comma (slice cs 5 11))) as [i t] eqn:E. injection G as <- <-.
      apply T in E as (G0 & G1 & G2). split; [exact G2|]. right. split; [lia|]. split.
      * intros Hin. clear - I Hin. induction (g_pos g) as [|x l IH]; [destruct Hin|]. cbn [index_of] in I.
        destruct (list_eqb teqb x (slice cs 5 11)) eqn:E; [discriminate|]. destruct Hin as [->|Hin].
        -- assert (X : forall y, list_eqb teqb y y = true).
           { induction y as [|a y IHy]; [reflexivity|]. cbn [list_eqb]. rewrite IHy, andb_true_r. now apply teqb_eq. }
           rewrite X in E. discriminate.
        -- match type of I with match ?y with _ => _ end = _ => destruct y eqn:Iy end; [discriminate|]. apply IH; [first [exact Iy|reflexivity]|exact Hin].
      * replace (Z.to_nat (i + Z.of_nat (length (g_pos g))) - length (g_pos g))%nat with (Z.to_nat i) by lia. exact G1.
Qed.
End rows.
Print Assumptions C58_accepted.
Print Assumptions C58_errors.
Print Assumptions C58_rejected.
Print Assumptions C58_part_of_speech.

Example C58_nonvacuous :
  (forall t e, toy_int t = Err e -> e = EValue) /\
  (exists e t, parse_line SystemDic toy_int [] (nth 2 toy_rows []) = Ok (e, t) /\ e_cost e = 7 /\ e_head_length e = 6%nat) /\
  parse_line SystemDic toy_int [] (firstn 17 (nth 2 toy_rows [])) = Err EValue /\
  parse_line SystemDic toy_int [] ([] :: skipn 1 (nth 2 toy_rows [])) = Err EValue.
Proof.
  assert (D : forall t a e, decimal a t = Err e -> e = EValue).
  { induction t as [|c t IH]; intros a e H; cbn [decimal] in H; [discriminate|]. destruct (_ && _); [eauto|congruence]. }
  split.
  { intros t e H. unfold toy_int in H.
    repeat match type of H with match ?x with _ => _ end = _ => is_var x; destruct x end; try (eapply D; exact H); try congruence.
    destruct (decimal 0 _) eqn:E in H; cbn [bind] in H; [discriminate|]. injection H as <-. eapply D; eauto. }
  split; [do 2 eexists; split; [vm_compute; reflexivity|split; reflexivity]|]. split; vm_compute; reflexivity.
Qed.

(** ** C59 *)
Definition system_versions : list Z := [0x7366d3f18bd111e7; 0xce9f011a92394434].
Definition user_versions : list Z := [0xa50f31188bd211e7; 0x9fdeb5a90168d868; 0xca9811756ff64fb0].

Theorem C59_versions v :
  (is_dictionary v = true <-> In v (system_versions ++ user_versions)) /\
  (is_system_dictionary v = true <-> In v system_versions) /\ (is_user_dictionary v = true <-> In v user_versions) /\
  ~ (In v system_versions /\ In v user_versions).
Proof.
  unfold is_dictionary, is_system_dictionary, is_user_dictionary, system_versions, user_versions,
    SYSTEM_DICT_VERSION_1, SYSTEM_DICT_VERSION_2, USER_DICT_VERSION_1, USER_DICT_VERSION_2, USER_DICT_VERSION_3.
  cbn [existsb app In]. rewrite !orb_true_iff, !Z.eqb_eq. repeat split; intros; try lia; intuition (try discriminate; lia).
Qed.
Print Assumptions C59_versions.

(** Files: what opens as a system (user) dictionary has a system (user) version; one of the
    other kind is an OSError, any other version is an exception too. *)
Theorem C59_files d h : d <> [] -> header_from_bytes d 0 = Ok h ->
  (~ In (h_version h) (system_versions ++ user_versions) ->
     read_dictionary d = Err EException /\ from_system_dictionary d = Err EException /\ from_user_dictionary d = Err EException) /\
  (In (h_version h) system_versions -> from_system_dictionary d = read_dictionary d /\ forall x, from_user_dictionary d <> Ok x) /\
  (In (h_version h) user_versions -> from_user_dictionary d = read_dictionary d /\ forall x, from_system_dictionary d <> Ok x) /\
  (forall x, read_dictionary d = Ok x -> d_header x = h /\
     (In (h_version h) user_versions -> from_system_dictionary d = Err EIO) /\ (In (h_version h) system_versions -> from_user_dictionary d = Err EIO)).
Proof.
  intros N Hh. destruct (C59_versions (h_version h)) as (V1 & V2 & V3 & V4).
  assert (R : forall x, read_dictionary d = Ok x -> d_header x = h).
  { intros x H. rewrite read_dictionary_nonempty in H by auto. rewrite Hh in H. cbn [bind] in H.
    destruct (negb _); [discriminate|].
    match type of H with (let '(p, g) := ?y in _) = _ => destruct y as [p g] end.
    apply bind_ok in H as (g0 & _ & H). apply bind_ok in H as (lx & _ & H). injection H as <-. reflexivity. }
  unfold from_system_dictionary, from_user_dictionary. split.
  { intros X. assert (E : read_dictionary d = Err EException).
    { rewrite read_dictionary_nonempty by auto. rewrite Hh. cbn [bind]. destruct (is_dictionary (h_version h)); [tauto|reflexivity]. }
    rewrite E. auto. }
  destruct (read_dictionary d) as [x|e] eqn:E; cbn [bind].
  - rewrite (R x eq_refl). split; [|split].
    + intros X. rewrite (proj2 V2 X). split; [reflexivity|]. intros y. destruct (is_user_dictionary (h_version h)); [tauto|discriminate].
    + intros X. rewrite (proj2 V3 X). split; [reflexivity|]. intros y. destruct (is_system_dictionary (h_version h)); [tauto|discriminate].
    + intros y [= <-]. split; [auto|]. split; intros X.
      * destruct (is_system_dictionary (h_version h)); [tauto|reflexivity].
      * destruct (is_user_dictionary (h_version h)); [tauto|reflexivity].
  - repeat split; intros; try discriminate; reflexivity.
Qed.
Print Assumptions C59_files.

Example C59_nonvacuous : exists h x, header_from_bytes toy_bytes 0 = Ok h /\ In (h_version h) system_versions /\
  from_system_dictionary toy_bytes = Ok x /\ from_user_dictionary toy_bytes = Err EIO.
Proof.
  destruct (header_from_bytes toy_bytes 0) as [h|] eqn:H; [|vm_compute in H; discriminate].
  destruct (from_system_dictionary toy_bytes) as [x|] eqn:F; [|vm_compute in F; discriminate].
  exists h, x. split; [auto|]. split; [vm_compute in H; injection H as <-; vm_compute; auto|]. split; [auto|]. vm_compute. reflexivity.
Qed.

(** Older versions are read as they were written: words of the first system and the first two
    user versions have no synonym groups, and only the first user version has no grammar. *)
Lemma ret_bind_inv {A B} d (p : prog A) (f : A -> prog B) q q' b : prun d q (pbind p f) = (q', Ok b) -> exists q1 a, prun d q p = (q1, Ok a) /\ prun d q1 (f a) = (q', Ok b).
Proof. rewrite prun_bind. destruct (prun d q p) as [q1 [a|e]]; [intros H; exists q1, a; auto|discriminate]. Qed.
Lemma old_fields d q q' wi : prun d q (read_fields false) = (q', Ok wi) -> wi_syn wi = [].
Proof.
  unfold read_fields. intros H.
  repeat match type of H with prun _ _ (pbind _ _) = _ => apply ret_bind_inv in H as (? & ? & ? & H) end.
  cbn [prun] in *. repeat match goal with E : (_, Ok _) = (_, Ok _) |- _ => injection E as <- <- end. reflexivity.
Qed.
Theorem C59_old_versions d x : read_dictionary d = Ok x ->
  let v := h_version (d_header x) in
  (In v [0x7366d3f18bd111e7; 0xa50f31188bd211e7; 0x9fdeb5a90168d868] -> forall limit wid wi, lx_word_info limit (d_lexicon x) wid = Ok wi -> wi_syn wi = []) /\
  (d_grammar x = None <-> v = 0xa50f31188bd211e7).
Proof.
  intros H. cbn zeta. destruct d as [|b0 d0]; [discriminate|]. rewrite read_dictionary_nonempty in H by discriminate. remember (b0 :: d0) as d. apply bind_ok in H as (h & Hh & H).
  destruct (is_dictionary (h_version h)) eqn:ID; cbn [negb] in H; [|discriminate].
  assert (S : exists p g, (has_grammar (h_version h) = false <-> g = None) /\ (exists lx, snd (prun d p (read_lexicon d (HEADER_SIZE + match g with Some g => g_storage g | None => 0 end)%nat (has_synonym_group_ids (h_version h)))) = Ok lx /\ x = Dictionary g h lx)).
  { destruct (has_grammar (h_version h)).
    - destruct (prun d 0 (read_grammar d HEADER_SIZE)) as [p [g|]]; cbn [bind] in H; [|discriminate]. apply bind_ok in H as (lx & E & [= <-]). exists p, (Some g). split; [split; discriminate|]. exists lx. auto.
    - cbn [bind] in H. apply bind_ok in H as (lx & E & [= <-]). exists O, None. split; [tauto|]. exists lx. auto. }
  destruct S as (p & g & HG & lx & E & ->). cbn [d_header d_grammar d_lexicon]. clear H. split.
  - intros V. assert (SY : has_synonym_group_ids (h_version h) = false) by (destruct V as [<-|[<-|[<-|[]]]]; reflexivity). rewrite SY in E. clear - E.
    assert (L : lx_syn lx = false).
    { match type of E with snd ?y = _ => destruct y as [p' r] eqn:R end. cbn [snd] in E. subst r. unfold read_lexicon in R.
      repeat match type of R with prun _ _ (pbind _ _) = _ => apply ret_bind_inv in R as (? & ? & _ & R) | prun _ _ (let '(_, _) := ?y in _) = _ => destruct y end. cbn [prun] in R. injection R as _ <-. reflexivity. }
    intros limit wid wi H. unfold lx_word_info in H. rewrite L in H. match type of H with snd ?y = _ => destruct y as [p' r] eqn:R end. cbn [snd] in H. subst r. destruct limit as [|n]; [discriminate R|]. cbn [read_word_info] in R.
    apply ret_bind_inv in R as (? & ? & _ & R). apply ret_bind_inv in R as (? & ? & _ & R). apply ret_bind_inv in R as (? & ? & _ & R). apply ret_bind_inv in R as (q & w & F & R). apply ret_bind_inv in R as (? & ? & _ & R). apply ret_bind_inv in R as (? & ? & _ & R).
    cbn [prun] in R. injection R as _ <-. exact (old_fields _ _ _ _ F).
  - rewrite <- HG. destruct (C59_versions (h_version h)) as (V1 & _). apply V1 in ID. clear - ID. cbn in ID. destruct ID as [<-|[<-|[<-|[<-|[<-|[]]]]]]; (split; [intros X; try discriminate X; reflexivity|intros X; try discriminate X; reflexivity]).
Qed.
Print Assumptions C59_old_versions.

(** The toy dictionary with the number of the first version instead of its own: its words are
    the same, without their synonym groups. *)
Definition old_bytes : bytes := le 8 0x7366d3f18bd111e7 ++ skipn 8 toy_bytes.
Example C59_old_nonvacuous : exists x y wi, read_dictionary old_bytes = Ok x /\ h_version (d_header x) = 0x7366d3f18bd111e7 /\ read_dictionary toy_bytes = Ok y /\
  lx_word_info 10 (d_lexicon x) 0 = Ok wi /\ wi_syn wi = [] /\
  exists wi', lx_word_info 10 (d_lexicon y) 0 = Ok wi' /\ wi_surface wi' = wi_surface wi /\ wi_norm wi' = wi_norm wi.
Proof.
  destruct (read_dictionary old_bytes) as [x|] eqn:H; [|vm_compute in H; discriminate]. destruct (read_dictionary toy_bytes) as [y|] eqn:K; [|vm_compute in K; discriminate].
  assert (E : (x <- read_dictionary old_bytes ;; y <- read_dictionary toy_bytes ;; w <- lx_word_info 10 (d_lexicon x) 0 ;; w' <- lx_word_info 10 (d_lexicon y) 0 ;;
    Ok ((h_version (d_header x) =? 0x7366d3f18bd111e7) && teqb (wi_surface w') (wi_surface w) && teqb (wi_norm w') (wi_norm w) && match wi_syn w with [] => true | _ => false end)) = Ok true) by (vm_compute; reflexivity).
  rewrite H, K in E. cbn [bind] in E. apply bind_ok in E as (w & W & E). apply bind_ok in E as (w' & W' & E). assert (E' : forall A (a b : A), Ok a = Ok b -> a = b) by (intros A a b Z; now injection Z). apply E' in E.
  apply andb_true_iff in E as (E & E4). apply andb_true_iff in E as (E & E3). apply andb_true_iff in E as (E1 & E2). apply Z.eqb_eq in E1. apply teqb_eq in E2, E3.
  exists x, y, w. split; [reflexivity|]. split; [exact E1|]. split; [reflexivity|]. split; [exact W|]. split; [destruct (wi_syn w); [reflexivity|discriminate]|]. exists w'. auto.
Qed.
