(** C42: looking a word up in a set of dictionaries, and the size of the set. *)
From Coq Require Import List ZArith Lia Bool Arith Sorted FinFun.
From Verif Require Import Base Utf8 M_Builder M_Lattice M_Tokenizer M_Bytes P_Bytes M_DicReader M_DicBuilder P_DicFormat P_DicWrite P_DicOpen
  P_DicGrammar P_DicSource P_DicLexicon P_DicFile P_DicToy Prop_Format Prop_Source M_LexiconSet P_LexiconSet Prop_Lexicon P_Setup P_System Prop_System.
Import ListNotations.
Open Scope Z_scope.

Section word_id.
Variable search : bytes -> bytes -> list (Z * nat).
Variable limit : nat.
Notation is_word := (is_word limit).
Notation usable := (usable search limit).

(** A set of any number of lexicons.  The lexicons are asked in order, as long as they have the
    word under a number above 0.  The first that has not ends the search: when the word is its
    entry 0 the result is the id of that entry in the set, and when it has no such word the
    result is -1, whatever the lexicons after it hold.  When all have the word, the result is
    the id of the entry of the first. *)
Definition above (headword : text) (pos : Z) (reading : text) (l : list (nat * lexicon)) : Prop :=
  Forall (fun lx => exists w, 0 < w /\ lx_get_word_id search limit (snd lx) headword pos reading = Ok w /\ is_word (snd lx) headword pos reading w) l.
Lemma from_set s headword pos reading (K : exists key, encode headword = Ok key) : forall l k, Forall (fun lx => usable (snd lx)) l ->
  (k + length l <= length (ls_lexicons s))%nat ->
  (exists pre lx post, l = pre ++ lx :: post /\ above headword pos reading pre /\
     ((is_word (snd lx) headword pos reading 0 /\ ls_get_word_id_from search limit s k l headword pos reading = Ok (Some (Z.of_nat (k + length pre) * 2 ^ 28))) \/
      ((forall i, ~ is_word (snd lx) headword pos reading i) /\ ls_get_word_id_from search limit s k l headword pos reading = Ok (Some (-1))))) \/
  (above headword pos reading l /\ ls_get_word_id_from search limit s k l headword pos reading = Ok None).
Proof.
  induction l as [|lx r IH]; intros k F L; [right; split; [constructor|reflexivity]|].
  apply Forall_cons_iff in F as [U F]. cbn [length] in L. destruct (C42_lexicon search limit (snd lx) headword pos reading U K) as (w & Hw & R).
  cbn [ls_get_word_id_from]. rewrite Hw. cbn [bind]. destruct (w <=? 0) eqn:W; Zbool.
  - left. exists [], lx, r. split; [reflexivity|]. split; [constructor|]. unfold ls_build_word_id.
    replace (Z.of_nat (length (ls_lexicons s)) <? Z.of_nat k) with false by (symmetry; apply Z.ltb_ge; lia).
    replace (0x0FFFFFFF <? w) with false by (symmetry; apply Z.ltb_ge; lia). cbn [bind].
    destruct R as [R|(-> & R)].
    + left. assert (w = 0) by (destruct R as (X & _); lia). subst w. split; [exact R|]. rewrite Z.lor_0_r, Z.shiftl_mul_pow2 by lia. cbn [length]. now rewrite Nat.add_0_r.
    + right. split; [exact R|]. now rewrite Z.lor_m1_r.
  - destruct R as [R|(-> & _)]; [|lia]. assert (A : above headword pos reading [lx]) by (constructor; [exists w; split; [lia|]; split; [exact Hw|exact R]|constructor]).
    destruct (IH (S k) F ltac:(lia)) as [(pre & x & post & -> & P & D)|(P & D)].
    + left. exists (lx :: pre), x, post. split; [reflexivity|]. split; [apply (Forall_app _ [lx]); now split|].
      cbn [length]. replace (k + S (length pre))%nat with (S k + length pre)%nat by lia. exact D.
    + right. split; [apply (Forall_app _ [lx]); now split|exact D].
Qed.
Theorem C42_set s headword pos reading :
  ls_lexicons s <> [] -> Forall (fun lx => usable (snd lx)) (ls_lexicons s) -> (exists key, encode headword = Ok key) ->
  (exists pre lx post, ls_lexicons s = pre ++ lx :: post /\ above headword pos reading pre /\
     ((is_word (snd lx) headword pos reading 0 /\ ls_get_word_id search limit s headword pos reading = Ok (Z.of_nat (length pre) * 2 ^ 28)) \/
      ((forall i, ~ is_word (snd lx) headword pos reading i) /\ ls_get_word_id search limit s headword pos reading = Ok (-1)))) \/
  (above headword pos reading (ls_lexicons s) /\
   exists lx r w, ls_lexicons s = lx :: r /\ 0 < w /\ is_word (snd lx) headword pos reading w /\ ls_get_word_id search limit s headword pos reading = Ok w).
Proof.
  intros NE F K. unfold ls_get_word_id. destruct (from_set s headword pos reading K (ls_lexicons s) 0 F (le_n _)) as [(pre & lx & post & E & P & [(R & D)|(R & D)])|(P & D)].
  - left. exists pre, lx, post. split; [exact E|]. split; [exact P|]. left. split; [exact R|]. rewrite D. reflexivity.
  - left. exists pre, lx, post. split; [exact E|]. split; [exact P|]. right. split; [exact R|]. rewrite D. reflexivity.
  - right. split; [exact P|]. rewrite D. cbn [bind]. destruct (ls_lexicons s) as [|lx r]; [easy|]. apply Forall_cons_iff in P as [(w & W & Hw & R) _].
    exists lx, r, w. split; [reflexivity|]. split; [exact W|]. split; [exact R|]. exact Hw.
Qed.
End word_id.

(** The size of a set of dictionaries made from sources: all their entries together *)
Theorem C42_size py_int is_digit search us s :
  Forall2 (fun ku lx => has_words py_int is_digit search (fst ku) (snd ku) (snd lx)) us (ls_lexicons s) ->
  ls_size s = length (concat (map (fun ku => s_entries (dc_source (snd ku))) us)).
Proof.
  unfold ls_size. intros H. induction H as [|ku lx us l (lx0 & LO & LS & SW) H IH]; [reflexivity|]. cbn [map list_sum fold_right concat]. rewrite app_length.
  change (fold_right Nat.add O ?l) with (list_sum l). rewrite <- IH. f_equal. rewrite <- (lo_size _ _ _ _ _ _ LO). symmetry. apply SW.
Qed.
Print Assumptions C42_set.
Print Assumptions C42_size.

(** The lexicons of dictionaries that the builder wrote are usable. *)
Lemma loaded_usable py_int is_digit search trie_array limit analyse g0 sys_id system users ds :
  trie_contract search trie_array -> built py_int is_digit trie_array SystemDic system ->
  (exists dict, from_system_dictionary (dc_file system) = Ok dict /\ d_grammar dict = Some g0) ->
  Forall (built py_int is_digit trie_array (UserDic g0 sys_id (length (s_entries (dc_source system))))) users ->
  (forall u i, In u (system :: users) -> (i < length (s_entries (dc_source u)))%nat -> exists n, (n <= limit)%nat /\ chain_ends (s_entries (dc_source u)) n i) ->
  load_dictionaries limit analyse (dc_file system) (map dc_file users) = Ok ds ->
  ls_lexicons (ds_lexicon ds) <> [] /\ Forall (fun lx => usable search limit (snd lx)) (ls_lexicons (ds_lexicon ds)) /\
  ls_size (ds_lexicon ds) = length (concat (map (fun u => dc_rows u) (system :: users))).
Proof.
  intros CT SB GO UB CH L. pose proof (load_ok _ _ _ _ CT _ _ _ _ _ _ SB GO eq_refl _ _ UB L) as LD.
  assert (N : forall k id lx, nth_error (ls_lexicons (ds_lexicon ds)) k = Some (id, lx) -> exists u, nth_error (system :: users) k = Some u /\
    built py_int is_digit trie_array (kind_of g0 sys_id (length (s_entries (dc_source system))) k) u /\ has_words py_int is_digit search (kind_of g0 sys_id (length (s_entries (dc_source system))) k) u lx).
  { intros k id lx Hl. destruct (nth_error (system :: users) k) as [u|] eqn:E.
    - exists u. split; [reflexivity|]. split; [exact (dic_built _ _ _ _ _ _ _ _ SB UB k u E)|]. destruct (ld_words _ _ _ _ _ _ _ _ _ LD k u E) as (id' & lx' & Hl' & W). rewrite Hl in Hl'. injection Hl' as _ <-. exact W.
    - apply nth_error_None in E. cbn [length] in E. assert (k < length (ls_lexicons (ds_lexicon ds)))%nat by (apply nth_error_Some; congruence). rewrite (ld_count _ _ _ _ _ _ _ _ _ LD) in H. lia. }
  split; [|split].
  - intros E. pose proof (ld_count _ _ _ _ _ _ _ _ _ LD) as C. rewrite E in C. discriminate C.
  - apply Forall_forall. intros (id & lx) Hin. apply In_nth_error in Hin as (k & Hk). destruct (N _ _ _ Hk) as (u & Hu & B & W). cbn [snd].
    eapply built_usable; eauto. intros i. apply CH. eapply nth_error_In; eauto.
  - rewrite (C42_size py_int is_digit search (map (fun k => (kind_of g0 sys_id (length (s_entries (dc_source system))) k, nth k (system :: users) system)) (seq 0 (S (length users))))).
    + rewrite map_map. cbn [snd]. transitivity (length (concat (map (fun u => s_entries (dc_source u)) (system :: users)))).
      * f_equal. f_equal. rewrite <- (map_map (fun k => nth k (system :: users) system) (fun u => s_entries (dc_source u))). f_equal.
        assert (X : forall (l : list dic) z, map (fun k => nth k l z) (seq 0 (length l)) = l).
        { clear. induction l as [|a l IH]; intros z; [reflexivity|]. cbn [length seq map nth]. f_equal. rewrite <- seq_shift, map_map. cbn [nth]. apply IH. }
        exact (X (system :: users) system).
      * assert (Y : forall us, Forall (fun u => length (s_entries (dc_source u)) = length (dc_rows u)) us -> length (concat (map (fun u => s_entries (dc_source u)) us)) = length (concat (map dc_rows us))).
        { clear. induction 1 as [|u us E F IH]; [reflexivity|]. cbn [map concat]. rewrite !app_length, IH, E. reflexivity. }
        apply Y. apply Forall_forall. intros u Hu. apply In_nth_error in Hu as (k & Hk). pose proof (dic_built _ _ _ _ _ _ _ _ SB UB k u Hk) as B.
        destruct B as (_ & _ & _ & _ & _ & _ & HB & _). destruct (build_rows _ _ _ _ _ HB) as (_ & LN & _). cbn [new_source s_entries length Nat.add] in LN. exact LN.
    + assert (Z : forall (l : list (nat * lexicon)) m (f : nat -> kind * dic), length l = m -> (forall k id lx, nth_error l k = Some (id, lx) -> has_words py_int is_digit search (fst (f k)) (snd (f k)) lx) ->
        Forall2 (fun ku lx => has_words py_int is_digit search (fst ku) (snd ku) (snd lx)) (map f (seq 0 m)) l).
      { clear. induction l as [|(id & lx) l IH]; intros m f <- H; [constructor|]. cbn [length seq map]. constructor; [exact (H 0%nat id lx eq_refl)|].
        rewrite <- seq_shift, map_map. apply IH; [reflexivity|]. intros k. exact (H (S k)). }
      apply Z; [exact (ld_count _ _ _ _ _ _ _ _ _ LD)|]. intros k id lx Hl. destruct (N _ _ _ Hl) as (u & Hu & _ & W). cbn [fst snd]. now rewrite (nth_error_nth _ _ system Hu).
Qed.
(** So for dictionaries that the builder wrote: the size is the number of rows. *)
Theorem C42_rows py_int is_digit search trie_array limit analyse g0 sys_id system users ds :
  trie_contract search trie_array -> built py_int is_digit trie_array SystemDic system ->
  (exists dict, from_system_dictionary (dc_file system) = Ok dict /\ d_grammar dict = Some g0) ->
  Forall (built py_int is_digit trie_array (UserDic g0 sys_id (length (s_entries (dc_source system))))) users ->
  (forall u i, In u (system :: users) -> (i < length (s_entries (dc_source u)))%nat -> exists n, (n <= limit)%nat /\ chain_ends (s_entries (dc_source u)) n i) ->
  load_dictionaries limit analyse (dc_file system) (map dc_file users) = Ok ds ->
  ls_size (ds_lexicon ds) = length (concat (map dc_rows (system :: users))).
Proof. intros A B C D E F. now destruct (loaded_usable _ _ _ _ _ _ _ _ _ _ _ A B C D E F) as (_ & _ & X). Qed.
Print Assumptions C42_rows.

(** ** The hypotheses are met *)
Definition one_row : dic := toy_dic SystemDic [toy_row [26481; 20140] [55] P1 [4] [5] star star star] (Some toy_matrix).
Definition one_lexicon : lexicon := match from_system_dictionary (dc_file one_row) with Ok d => d_lexicon d | Err _ => Lexicon [] [] [] [] 0 0 false end.
Example C42_set_nonvacuous :
  (ls_lexicons (ds_lexicon toy_set) <> [] /\ Forall (fun lx => usable toy_search 10 (snd lx)) (ls_lexicons (ds_lexicon toy_set)) /\ ls_size (ds_lexicon toy_set) = 6%nat) /\
  ls_get_word_id toy_search 10 (ds_lexicon toy_set) [26481] 0 [1] = Ok 0 /\
  ls_get_word_id toy_search 10 (LexSet [(0, d_lexicon toy_dictionary); (1, one_lexicon)]%nat [0; 1]) [26481; 20140] 0 [4] = Ok (2 ^ 28).
Proof.
  split; [|split; vm_compute; reflexivity].
  destruct C38_nonvacuous as (A1 & A2 & A3 & A4 & A5 & A6).
  destruct (loaded_usable toy_int toy_digit toy_search toy_array 10 toy_analyse toy_grammar toy_sys_id toy_system toy_users toy_set A6 A1 A2) as (X & Y & Z).
  - rewrite <- A3. exact A4.
  - exact (bf_forms _ _ _ _ _ _ _ _ _ _ _ _ _ _ toy_built_from).
  - exact A5.
  - split; [exact X|]. split; [exact Y|]. rewrite Z. reflexivity.
Qed.
