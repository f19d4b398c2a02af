(** C62: a MorphemeList behaves like a sequence. *)
From Coq Require Import List ZArith Lia Bool Arith.
From Verif Require Import Base M_Lattice M_Tokenizer M_Morphemes.
Import ListNotations.
Open Scope Z_scope.

(** Indexing succeeds exactly for -len <= i < len; a negative index counts from the
    end; iteration yields the morphemes at the indices 0, ..., len-1 in order. *)
Theorem C62_sequence l :
  let n := Z.of_nat (ml_len l) in
  (forall i, 0 <= i < n -> ml_getitem l i = Ok (Z.to_nat i)) /\
  (forall i, 1 <= i <= n -> ml_getitem l (- i) = ml_getitem l (n - i)) /\
  (forall i, (exists m, ml_getitem l i = Ok m) <-> - n <= i < n) /\
  (forall i e, ml_getitem l i = Err e -> e = EIndex) /\
  length (ml_iter l) = ml_len l /\
  forall k m, nth_error (ml_iter l) k = Some m <-> Z.of_nat k < n /\ ml_getitem l (Z.of_nat k) = Ok m.
Proof.
  cbv zeta. unfold ml_len, ml_getitem, ml_iter. set (n := length (ml_path l)).
  assert (G : forall i, 0 <= i < Z.of_nat n ->
    (if (Z.of_nat n <=? i) || (i <? - Z.of_nat n) then Err EIndex
     else if i <? 0 then Ok (Z.to_nat (Z.of_nat n + i)) else Ok (Z.to_nat i)) = Ok (Z.to_nat i)).
  { intros i Hi. destruct (Z.leb_spec (Z.of_nat n) i); [lia|]. destruct (Z.ltb_spec i (- Z.of_nat n)); [lia|]. cbn [orb].
    destruct (Z.ltb_spec i 0); [lia|reflexivity]. }
  split; [exact G|]. split; [|split; [|split; [|split]]].
  - intros i Hi. rewrite (G (Z.of_nat n - i)) by lia.
    destruct (Z.leb_spec (Z.of_nat n) (- i)); [lia|]. destruct (Z.ltb_spec (- i) (- Z.of_nat n)); [lia|]. cbn [orb].
    destruct (Z.ltb_spec (- i) 0); [|lia]. f_equal.
  - intros i. destruct (Z.leb_spec (Z.of_nat n) i); [split; [intros (m & [=])|lia]|].
    destruct (Z.ltb_spec i (- Z.of_nat n)); [split; [intros (m & [=])|lia]|]. cbn [orb].
    split; [lia|]. destruct (i <? 0); eauto.
  - intros i e. destruct (_ || _); [congruence|]. destruct (i <? 0); discriminate.
  - apply seq_length.
  - intros k m. split.
    + intros H. assert (Hk : (k < n)%nat) by (rewrite <- (seq_length n 0); apply nth_error_Some; congruence).
      split; [lia|]. rewrite G by lia. rewrite Nat2Z.id.
      rewrite (nth_error_nth' _ 0%nat) in H by now rewrite seq_length. rewrite seq_nth in H by auto. now injection H as <-.
    + intros (Hk & H). rewrite G in H by lia. rewrite Nat2Z.id in H. injection H as <-.
      rewrite (nth_error_nth' _ 0%nat) by (rewrite seq_length; lia). rewrite seq_nth by lia. reflexivity.
Qed.
Print Assumptions C62_sequence.

Example C62_nonvacuous :
  let l := Morphemes None [blank_node; blank_node; blank_node] in
  ml_getitem l (-1) = Ok 2%nat /\ ml_getitem l 2 = Ok 2%nat /\ ml_getitem l 3 = Err EIndex /\ ml_getitem l (-4) = Err EIndex /\
  ml_iter l = [0; 1; 2]%nat.
Proof. repeat split. Qed.
