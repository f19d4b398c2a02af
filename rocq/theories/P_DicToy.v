(** A simple index that meets the contract of the double array, and a small source, for the
    examples. *)
From Coq Require Import List ZArith Lia Bool Arith Sorted.
From Verif Require Import Base Utf8 M_Builder M_Lattice M_Tokenizer M_Bytes P_Bytes M_DicReader M_DicBuilder P_DicFormat P_DicSource P_DicLexicon.
Import ListNotations.
Open Scope Z_scope.

(** Each key as its length, its value and its bytes; 255 fills up the end. *)
Fixpoint toy_items (kvs : list (bytes * Z)) : bytes :=
  match kvs with [] => [] | (key, v) :: r => Z.of_nat (length key) :: v :: key ++ toy_items r end.
Definition toy_array (kvs : list (bytes * Z)) : res bytes :=
  if forallb (fun kv => (Z.of_nat (length (fst kv)) <? 255) && (0 <=? snd kv) && (snd kv <? 256)) kvs
  then let b := toy_items kvs in Ok (b ++ repeat 255 (4 - length b mod 4)) else Err EValue.
Fixpoint toy_read (n : nat) (b : bytes) : list (bytes * Z) :=
  match n, b with
  | S n', l :: v :: r =>
    if l =? 255 then [] else (firstn (Z.to_nat l) r, v) :: toy_read n' (skipn (Z.to_nat l) r)
  | _, _ => []
  end.
Definition toy_search (arr key : bytes) : list (Z * nat) :=
  map (fun kv => (snd kv, length (fst kv))) (filter (fun kv => is_prefix (fst kv) key) (toy_read (length arr) arr)).

Lemma toy_read_items kvs : forallb (fun kv => (Z.of_nat (length (fst kv)) <? 255) && (0 <=? snd kv) && (snd kv <? 256)) kvs = true ->
  forall n m, (length kvs <= n)%nat -> toy_read n (toy_items kvs ++ repeat 255 m) = kvs.
Proof.
  induction kvs as [|(key, v) kvs IH]; intros B n m L; cbn [toy_items app].
  - destruct n; [reflexivity|]. destruct m as [|[|m]]; reflexivity.
  - cbn [length] in L. destruct n as [|n]; [lia|]. cbn [toy_read].
    cbn [forallb fst snd] in B. apply andb_true_iff in B as (B1 & B). apply andb_true_iff in B1 as (B1 & _). apply andb_true_iff in B1 as (B1 & _). apply Z.ltb_lt in B1.
    replace (Z.of_nat (length key) =? 255) with false by (symmetry; apply Z.eqb_neq; lia).
    rewrite Nat2Z.id, <- app_assoc, firstn_exact, skipn_exact by reflexivity. rewrite IH by (auto; lia). reflexivity.
Qed.

Lemma toy_items_length kvs : (length kvs <= length (toy_items kvs))%nat.
Proof. induction kvs as [|(key, v) kvs IH]; cbn [toy_items length]; [lia|]. rewrite app_length. lia. Qed.

Theorem toy_contract : trie_contract toy_search toy_array.
Proof.
  intros kvs arr _ H. unfold toy_array in H. cbv zeta in H. match type of H with (if ?b then _ else _) = _ => destruct b eqn:B; [|discriminate H] end.
  match type of H with Ok ?x = Ok _ => assert (E : arr = x) by congruence end. clear H. subst arr. split.
  - rewrite app_length, repeat_length.
    pose proof (Nat.mod_upper_bound (length (toy_items kvs)) 4 ltac:(lia)). pose proof (Nat.div_mod (length (toy_items kvs)) 4 ltac:(lia)).
    replace (length (toy_items kvs) + (4 - length (toy_items kvs) mod 4))%nat with ((length (toy_items kvs) / 4 + 1) * 4)%nat by lia.
    apply Nat.mod_mul. lia.
  - intros key. unfold toy_search. rewrite toy_read_items; [reflexivity|exact B|].
    rewrite app_length. eapply Nat.le_trans; [apply toy_items_length|apply Nat.le_add_r].
Qed.

(** [int()] for plain decimal numbers *)
Fixpoint decimal (acc : Z) (t : text) : res Z :=
  match t with
  | [] => Ok acc
  | c :: r => if (48 <=? c) && (c <=? 57) then decimal (10 * acc + (c - 48)) r else Err EValue
  end.
Definition toy_int (t : text) : res Z :=
  match t with
  | [] => Err EValue
  | 45 :: ((_ :: _) as r) => z <- decimal 0 r ;; Ok (- z)
  | _ => decimal 0 t
  end.
Definition toy_digit (c : Z) : bool := (48 <=? c) && (c <=? 57).

(** A row with headword and surface [h], parameters 1 1 [cost], part of speech [pos], reading
    [r], normalised form [n], dictionary form [d], splits [a] [b]. *)
Definition toy_row (h cost : text) (pos : list text) (r n d a b : text) : list text :=
  [h; [49]; [49]; cost; h] ++ pos ++ [r; n; d; [67]; a; b; star].
Definition P1 : list text := [[21517]; [97]; star; star; star; star].   (* 名,a,*,*,*,* *)
Definition P2 : list text := [[21205]; [98]; star; star; star; star].   (* 動,b,*,*,*,* *)
(** 東 (cost 100); 京 (cost -5, its dictionary form is word 0); 東京 (split into 0/1) *)
Definition toy_rows : list (list text) :=
  [ toy_row [26481] [49; 48; 48] P1 [1] [26481] star star star;
    toy_row [20140] [45; 53] P2 [20140] [2; 3] [48] star star;
    toy_row [26481; 20140] [55] P1 [4] [5] star [48; 47; 49] [48; 47; 49] ].
Definition toy_matrix : matrix_source := MatrixSource [2; 2] [[0; 0; 5]; [0; 1; -3]; [1; 1; 7]; [0; 1; -4]].

Definition toy_file : res bytes := build_command SystemDic toy_int toy_digit toy_array 1600000000 [116; 111; 121] toy_rows (Some toy_matrix).
Lemma toy_file_ok : (match toy_file with Ok _ => true | Err _ => false end) = true.
Proof. vm_compute. reflexivity. Qed.
