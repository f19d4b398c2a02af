(** Shared vocabulary of the model: texts, exceptions as values, partial list
    accessors with Python's semantics for non-negative indices. *)
From Coq Require Import List ZArith Lia Bool Arith.
Import ListNotations.
Open Scope Z_scope.

(** A Python [str] is a list of code points, a [bytes] a list of bytes. *)
Definition text := list Z.
Definition bytes := list Z.

(** Python exceptions that the modelled code raises.  [EFuel] is not a Python
    exception: it is the value of a fuelled loop that ran out of fuel. *)
Inductive exn :=
| EIndex | EValue | EAttribute | ERuntime | EOverflow | EUnicode | EType
| EKey | EStruct | ERecursion | EBuffer | EIO | EException | EFuel.

Inductive res (A : Type) := Ok (a : A) | Err (e : exn).
Arguments Ok {A} a.
Arguments Err {A} e.

Definition bind {A B} (m : res A) (f : A -> res B) : res B :=
  match m with Ok a => f a | Err e => Err e end.
Notation "x <- m ;; f" := (bind m (fun x => f))
  (at level 61, m at next level, right associativity).
Notation "' p <- m ;; f" := (bind m (fun p => f))
  (at level 61, p pattern, m at next level, right associativity).

Definition is_ok {A} (m : res A) : bool := match m with Ok _ => true | Err _ => false end.

(** [l[i]] for a non-negative index. *)
Definition get {A} (l : list A) (i : nat) : res A :=
  match nth_error l i with Some a => Ok a | None => Err EIndex end.

(** [l[i] = a]. *)
Fixpoint set_nth {A} (l : list A) (i : nat) (a : A) : res (list A) :=
  match l, i with
  | [], _ => Err EIndex
  | _ :: r, O => Ok (a :: r)
  | x :: r, S j => r' <- set_nth r j a ;; Ok (x :: r')
  end.

(** [l.insert(i, a)]: an index past the end appends. *)
Definition insert_at {A} (l : list A) (i : nat) (a : A) : list A :=
  firstn i l ++ a :: skipn i l.

(** [l[b:e]] for non-negative bounds. *)
Definition slice {A} (l : list A) (b e : nat) : list A := skipn b (firstn e l).

(** [for x in l: s = f(s, x)] with exceptions. *)
Fixpoint foldM {A S} (f : S -> A -> res S) (s : S) (l : list A) : res S :=
  match l with
  | [] => Ok s
  | x :: r => s' <- f s x ;; foldM f s' r
  end.

Fixpoint mapM {A B} (f : A -> res B) (l : list A) : res (list B) :=
  match l with
  | [] => Ok []
  | x :: r => y <- f x ;; ys <- mapM f r ;; Ok (y :: ys)
  end.

Fixpoint list_eqb {A} (eqb : A -> A -> bool) (l1 l2 : list A) : bool :=
  match l1, l2 with
  | [], [] => true
  | x :: r, y :: s => eqb x y && list_eqb eqb r s
  | _, _ => false
  end.

(** * Lemmas *)

Lemma bind_ok {A B} (m : res A) (f : A -> res B) b :
  bind m f = Ok b <-> exists a, m = Ok a /\ f a = Ok b.
Proof.
  destruct m; simpl; split; intros H.
  - eauto.
  - destruct H as (x & [= ->] & H); auto.
  - discriminate.
  - destruct H as (x & H & _); discriminate.
Qed.

Lemma get_ok {A} (l : list A) i a : get l i = Ok a <-> nth_error l i = Some a.
Proof. unfold get; destruct (nth_error l i); split; congruence. Qed.

Lemma get_lt {A} (l : list A) i : (i < length l)%nat -> exists a, get l i = Ok a.
Proof.
  intros H. unfold get. destruct (nth_error l i) eqn:E; eauto.
  apply nth_error_None in E. lia.
Qed.

Lemma get_ok_lt {A} (l : list A) i a : get l i = Ok a -> (i < length l)%nat.
Proof.
  rewrite get_ok. intros H. apply nth_error_Some. congruence.
Qed.

Lemma get_ge {A} (l : list A) i : (length l <= i)%nat -> get l i = Err EIndex.
Proof.
  intros H. unfold get. apply nth_error_None in H. now rewrite H.
Qed.

Lemma get_app1 {A} (l r : list A) i : (i < length l)%nat -> get (l ++ r) i = get l i.
Proof. intros. unfold get. now rewrite nth_error_app1. Qed.

Lemma get_app2 {A} (l r : list A) i : (length l <= i)%nat -> get (l ++ r) i = get r (i - length l).
Proof. intros. unfold get. now rewrite nth_error_app2. Qed.

Lemma set_nth_app {A} (l r : list A) x a :
  set_nth (l ++ x :: r) (length l) a = Ok (l ++ a :: r).
Proof. induction l; simpl; auto. now rewrite IHl. Qed.

Lemma set_nth_ge {A} (l : list A) i a : (length l <= i)%nat -> set_nth l i a = Err EIndex.
Proof.
  revert i. induction l; simpl; intros [|i] H; auto; try lia.
  rewrite IHl; auto. lia.
Qed.

Lemma set_nth_spec {A} (l : list A) i a :
  (i < length l)%nat -> set_nth l i a = Ok (firstn i l ++ a :: skipn (S i) l).
Proof.
  revert i. induction l as [|x l IH]; simpl; intros i H; [lia|].
  destruct i; simpl; auto. rewrite IH by lia. reflexivity.
Qed.

Lemma insert_at_app {A} (l r : list A) a i :
  length l = i -> insert_at (l ++ r) i a = l ++ a :: r.
Proof.
  intros <-. unfold insert_at.
  rewrite firstn_app, skipn_app, firstn_all, skipn_all, Nat.sub_diag. simpl.
  now rewrite app_nil_r.
Qed.

Lemma foldM_app {A S} (f : S -> A -> res S) s l1 l2 :
  foldM f s (l1 ++ l2) = (s' <- foldM f s l1 ;; foldM f s' l2).
Proof.
  revert s. induction l1; simpl; auto.
  intros s. destruct (f s a); simpl; auto.
Qed.

Lemma mapM_ok_length {A B} (f : A -> res B) l l' : mapM f l = Ok l' -> length l' = length l.
Proof.
  revert l'. induction l; simpl; intros l' H.
  - now inversion H.
  - apply bind_ok in H as (y & _ & H). apply bind_ok in H as (ys & H & E).
    inversion E. simpl. f_equal. eauto.
Qed.

Lemma mapM_total {A B} (f : A -> B) (g : A -> res B) l :
  (forall x, In x l -> g x = Ok (f x)) -> mapM g l = Ok (map f l).
Proof.
  induction l; simpl; intros H; auto.
  rewrite H by auto. simpl. rewrite IHl; auto.
Qed.

Lemma list_eqb_spec {A} (eqb : A -> A -> bool) :
  (forall x y, eqb x y = true <-> x = y) ->
  forall l1 l2, list_eqb eqb l1 l2 = true <-> l1 = l2.
Proof.
  intros H. induction l1; destruct l2; simpl; split; intros E; try congruence.
  - apply andb_true_iff in E as [E1 E2]. apply H in E1. apply IHl1 in E2. congruence.
  - inversion E; subst. apply andb_true_iff. split; [now apply H|now apply IHl1].
Qed.

Lemma slice_all {A} (l : list A) e : (length l <= e)%nat -> slice l 0 e = l.
Proof. intros. unfold slice. simpl. now apply firstn_all2. Qed.

Lemma slice_length {A} (l : list A) b e :
  length (slice l b e) = (min e (length l) - b)%nat.
Proof. unfold slice. rewrite skipn_length, firstn_length. reflexivity. Qed.

Lemma slice_nil {A} (l : list A) b e : (e <= b)%nat -> slice l b e = [].
Proof.
  intros H. apply length_zero_iff_nil. rewrite slice_length. lia.
Qed.

Lemma firstn_skipn_slice {A} (l : list A) b e :
  (b <= e)%nat -> firstn b l ++ slice l b e = firstn e l.
Proof.
  intros H. unfold slice.
  transitivity (firstn b (firstn e l) ++ skipn b (firstn e l)).
  - f_equal. rewrite firstn_firstn. f_equal. lia.
  - apply firstn_skipn.
Qed.

Lemma slice_app_slice {A} (l : list A) a b c :
  (a <= b)%nat -> (b <= c)%nat -> slice l a b ++ slice l b c = slice l a c.
Proof.
  intros H1 H2.
  apply (app_inv_head (firstn a l)).
  rewrite app_assoc, !firstn_skipn_slice by lia. reflexivity.
Qed.

Lemma nth_error_slice {A} (l : list A) b e i :
  nth_error (slice l b e) i = if (b + i <? e)%nat then nth_error l (b + i) else None.
Proof.
  unfold slice.
  assert (Hs : forall (l : list A) b i, nth_error (skipn b l) i = nth_error l (b + i)).
  { clear. induction l; destruct b; simpl; intros; auto.
    now destruct i. }
  rewrite Hs.
  destruct (Nat.ltb_spec (b + i) e) as [H|H].
  - revert e H. generalize (b + i)%nat. clear. induction l; destruct e, n; simpl; intros; auto; try lia.
    apply IHl. lia.
  - apply nth_error_None. rewrite firstn_length. lia.
Qed.

Lemma nth_error_skipn' {A} (l : list A) b i : nth_error (skipn b l) i = nth_error l (b + i).
Proof. revert b. induction l; destruct b; simpl; intros; auto. now destruct i. Qed.

Lemma nth_error_firstn' {A} (l : list A) e i :
  (i < e)%nat -> nth_error (firstn e l) i = nth_error l i.
Proof.
  revert e i. induction l; destruct e, i; simpl; intros; auto; try lia. apply IHl. lia.
Qed.

Lemma skipn_skipn' {A} (l : list A) a b : skipn a (skipn b l) = skipn (a + b) l.
Proof.
  revert b. induction l; intros b.
  - now rewrite !skipn_nil.
  - destruct b; simpl; [now rewrite Nat.add_0_r|].
    rewrite Nat.add_succ_r. simpl. apply IHl.
Qed.

Lemma skipn_cons_nth {A} (l : list A) i a :
  nth_error l i = Some a -> skipn i l = a :: skipn (S i) l.
Proof.
  revert i. induction l; destruct i; simpl; intros H; try discriminate.
  - now inversion H.
  - now apply IHl.
Qed.
