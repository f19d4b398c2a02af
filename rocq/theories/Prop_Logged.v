(** C78: the bytes of the output file of the command `tokenize`. *)
From Coq Require Import List ZArith Lia Bool Arith.
From Verif Require Import Base Utf8 M_Front M_Tokenize.
Import ListNotations.
Open Scope Z_scope.

(** The output file is the UTF-8 encoding of the records, each with a line feed after it.  Records
    with a code point that UTF-8 does not have (a surrogate) are left out as a whole. *)
Theorem C78_bytes rs : encode (concat (map (fun r => r ++ [10]) (filter (forallb is_scalar) rs))) = Ok (logged rs).
Proof.
  assert (X : forall t, forallb is_scalar t = true -> exists b, encode t = Ok b).
  { intros t H. apply encode_total. apply Forall_forall. now apply forallb_forall. }
  unfold logged. induction rs as [|r rs IH]; [reflexivity|]. cbn [filter map concat]. destruct (forallb is_scalar r) eqn:S.
  - destruct (X (r ++ [10])) as (b & E); [now rewrite forallb_app, S|]. cbn [map concat]. unfold emit, NL. rewrite E. apply encode_app; [exact E|exact IH].
  - destruct (encode (emit r)) as [b|] eqn:E; [|exact IH]. exfalso. apply encode_scalar in E. unfold emit in E. apply Forall_app in E as (E & _).
    rewrite (proj2 (forallb_forall is_scalar r)) in S; [discriminate|]. now apply Forall_forall.
Qed.
Print Assumptions C78_bytes.
(** 東 and a record with a surrogate *)
Example C78_bytes_nonvacuous : logged [[26481]; [55296; 97]; [98]] = [230; 157; 177; 10; 98; 10].
Proof. reflexivity. Qed.
