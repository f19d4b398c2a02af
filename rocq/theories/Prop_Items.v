(** Property C99: the settings read and written by key. *)
From Coq Require Import List ZArith Lia Bool Arith.
From Verif Require Import Base Utf8 M_Builder M_Lattice M_Tokenizer M_DicBuilder M_Front Prop_Front.
Import ListNotations.
Open Scope Z_scope.

Section settings.
Variable load : text -> res conf.
Variable installed : text -> option text.
Variable dirname : text -> text.
Variable DEFAULT_SETTINGFILE : text.
Variable mentions : text -> json -> res bool.
Notation set_up := (set_up load installed dirname DEFAULT_SETTINGFILE mentions).
Notation set_item := (set_item load installed dirname DEFAULT_SETTINGFILE mentions).
Notation get_item := (get_item load installed dirname DEFAULT_SETTINGFILE mentions).

(** ** Specification *)
(** The states of the settings: after any calls, whether they succeed or not *)
Inductive reached : state -> Prop :=
| re_fresh : reached fresh
| re_set_up st p d t : reached st -> reached (fst (set_up st p d t))
| re_set st key v : reached st -> reached (fst (set_item st key v))
| re_get st key : reached st -> reached (fst (get_item st key)).
(** The settings of a state: none before a file was read *)
Definition shown (st : state) : option conf := if st_active st then st_dict st else None.

(** ** Proofs *)
Lemma set_up_active st p d t : (st_active st = true -> st_dict st <> None) -> let st' := fst (set_up st p d t) in st_active st' = true -> st_dict st' <> None.
Proof.
  intros H. unfold M_Front.set_up. cbv zeta. destruct (load _) as [c|]; [|exact H].
  destruct t as [t|].
  - destruct (existsb _ _); [|cbn; discriminate]. destruct (match conf_get c DICT_PATH_KEY with Some _ => _ | None => _ end); [|cbn; discriminate]. destruct (find_dict_path installed t); cbn; discriminate.
  - destruct (match conf_get c DICT_PATH_KEY with Some v => truthy v | None => false end); [cbn; discriminate|]. destruct (find_dict_path installed CORE); cbn; discriminate.
Qed.
Lemma reached_dict st : reached st -> st_active st = true -> st_dict st <> None.
Proof.
  induction 1 as [|st p d t R IH|st key v R IH|st key R IH]; [discriminate|now apply set_up_active| |].
  - unfold M_Front.set_item. destruct (st_active st) eqn:A.
    + destruct (st_dict st) eqn:D; [cbn; discriminate|exfalso; now apply IH].
    + pose proof (set_up_active st None None None ltac:(congruence)) as H. destruct (set_up st None None None) as [st1 [[]|e]]; cbn [fst] in *; [|exact H]. destruct (st_dict st1) eqn:D1; [cbn; discriminate|cbn; rewrite D1; exact H].
  - unfold M_Front.get_item. destruct (st_active st) eqn:A.
    + destruct (st_dict st) eqn:D; [cbn; rewrite D; discriminate|exfalso; now apply IH].
    + pose proof (set_up_active st None None None ltac:(congruence)) as H. destruct (set_up st None None None) as [st1 [[]|e]]; cbn [fst] in *; [|exact H]. destruct (st_dict st1) eqn:D1; cbn; rewrite D1; try discriminate; exact H.
Qed.
Lemma set_up_ok st p d t st' : set_up st p d t = (st', Ok tt) -> st_active st' = true /\ exists c, st_dict st' = Some c.
Proof. intros H. destruct (C60_set_up _ _ _ _ _ _ _ _ _ _ H) as (c & c' & _ & A & B & _). eauto. Qed.

(** ** C99 *)
(** Once a file was read, a key is answered with its value, or KeyError, and nothing changes. *)
Theorem C99_get st key c : reached st -> shown st = Some c ->
  get_item st key = (st, match conf_get c key with Some v => Ok v | None => Err EKey end).
Proof. intros _ E. unfold shown in E. unfold M_Front.get_item. destruct (st_active st); [|discriminate]. now rewrite E. Qed.
(** Before, the default file is read first; if this fails its error is the answer. *)
Theorem C99_first st key v : reached st -> shown st = None ->
  match set_up st None None None with
  | (st1, Ok _) => get_item st key = get_item st1 key /\ set_item st key v = set_item st1 key v
  | (st1, Err e) => get_item st key = (st1, Err e) /\ set_item st key v = (st1, Err e)
  end.
Proof.
  intros R E. pose proof (reached_dict st R) as D. unfold shown in E. destruct (st_active st) eqn:A; [exfalso; now apply D|].
  unfold M_Front.get_item, M_Front.set_item. rewrite A. destruct (set_up st None None None) as [st1 [[]|e]] eqn:H; [|split; reflexivity].
  destruct (set_up_ok _ _ _ _ _ H) as (A1 & _). rewrite A1. split; [reflexivity|]. rewrite ?A1. now destruct (st_dict st1).
Qed.
(** A value that was set is the value of its key; the other keys, and the resource directory, are
    as they were. *)
Theorem C99_set st key v c : reached st -> shown st = Some c ->
  exists st' c', set_item st key v = (st', Ok tt) /\ shown st' = Some c' /\ conf_get c' key = Some v /\ (forall k, k <> key -> conf_get c' k = conf_get c k) /\
    st_resource_dir st' = st_resource_dir st /\ get_item st' key = (st', Ok v) /\ (forall k, k <> key -> snd (get_item st' k) = snd (get_item st k)).
Proof.
  intros R E. pose proof E as E0. unfold shown in E. destruct (st_active st) eqn:A; [|discriminate].
  exists (State true (Some (conf_set c key v)) (st_config_path st) (st_resource_dir st)), (conf_set c key v).
  split; [unfold M_Front.set_item; rewrite A, E, ?A; reflexivity|]. split; [reflexivity|]. split; [apply conf_set_same|]. split; [intros k N; now apply conf_set_other|]. split; [reflexivity|].
  split; [unfold M_Front.get_item; cbn [st_active st_dict]; now rewrite conf_set_same|]. intros k N. rewrite (C99_get st k c R E0). unfold M_Front.get_item. cbn [st_active st_dict snd]. now rewrite conf_set_other.
Qed.
(** Reading a file forgets what was set before. *)
Theorem C99_read_again st p d t st' : reached st -> set_up st p d t = (st', Ok tt) ->
  exists c, load (match p with Some ((_ :: _) as p) => p | _ => DEFAULT_SETTINGFILE end) = Ok c /\
    forall key, key <> DICT_PATH_KEY -> get_item st' key = (st', match conf_get c key with Some v => Ok v | None => Err EKey end).
Proof.
  intros R H. assert (R' : reached st') by (change st' with (fst (st', @Ok unit tt)); rewrite <- H; now constructor).
  destruct (C60_set_up _ _ _ _ _ _ _ _ _ _ H) as (c & c' & L & A & B & _ & K & _). exists c. split; [exact L|]. intros key N.
  rewrite (C99_get st' key c' R'); [now rewrite K|]. unfold shown. now rewrite A.
Qed.
(** A file that cannot be read leaves the settings as they are. *)
Theorem C99_unreadable st p d t e : reached st -> load (match p with Some ((_ :: _) as p) => p | _ => DEFAULT_SETTINGFILE end) = Err e ->
  exists st', set_up st p d t = (st', Err e) /\ shown st' = shown st /\ st_resource_dir st' = st_resource_dir st.
Proof. intros _ H. unfold M_Front.set_up. change (load (or_else p DEFAULT_SETTINGFILE) = Err e) in H. cbv zeta. rewrite H. eexists. split; [reflexivity|]. split; reflexivity. Qed.
End settings.
Print Assumptions C99_get.
Print Assumptions C99_first.
Print Assumptions C99_set.
Print Assumptions C99_read_again.
Print Assumptions C99_unreadable.

(** ** The hypotheses are met *)
(** One file, with the settings 97 and systemDict; the default file cannot be read. *)
Definition items_load (p : text) : res conf := if teqb p [102] then Ok [([97], JNum 1); (DICT_PATH_KEY, JStr [100])] else Err EException.
Notation items_set_up := (set_up items_load (fun _ => None) (fun p => p) [120] (fun _ _ => Ok false)).
Notation items_set := (set_item items_load (fun _ => None) (fun p => p) [120] (fun _ _ => Ok false)).
Notation items_get := (get_item items_load (fun _ => None) (fun p => p) [120] (fun _ _ => Ok false)).
Example C99_nonvacuous :
  shown fresh = None /\ snd (items_get fresh [97]) = Err EException /\
  exists st st', items_set_up fresh (Some [102]) None None = (st, Ok tt) /\ reached items_load (fun _ => None) (fun p => p) [120] (fun _ _ => Ok false) st /\
    shown st = Some [([97], JNum 1); (DICT_PATH_KEY, JStr [100])] /\ items_get st [97] = (st, Ok (JNum 1)) /\ items_get st [98] = (st, Err EKey) /\
    items_set st [98] (JNum 2) = (st', Ok tt) /\ items_get st' [98] = (st', Ok (JNum 2)) /\ items_get st' [97] = (st', Ok (JNum 1)) /\
    items_get (fst (items_set_up st' (Some [102]) None None)) [98] = (st, Err EKey).
Proof.
  split; [reflexivity|]. split; [reflexivity|]. eexists. eexists. split; [reflexivity|]. split; [exact (re_set_up items_load (fun _ => None) (fun p => p) [120] (fun _ _ => Ok false) fresh (Some [102]) None None (re_fresh _ _ _ _ _))|].
  repeat split; reflexivity.
Qed.
Print Assumptions C99_nonvacuous.
