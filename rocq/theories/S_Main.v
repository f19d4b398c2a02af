(** What the usage texts of the tool say about its arguments.  Does not use the model. *)
From Coq Require Import String Ascii List ZArith Bool.
From Verif Require Import Base S_Resource.
Import ListNotations.
Open Scope list_scope.
Open Scope Z_scope.

(** Names that are not taken for an option *)
Definition no_option (t : text) : Prop := ~ exists c r, t = 45 :: c :: r.

(** ** The options of `sudachipy tokenize` *)
Inductive split_mode := A | B | C.
Inductive dict_type := Small | Core | Full.
Inductive tokenize_option := Setting (file : text) | Mode (m : split_mode) | Output (file : text) | Type_ (t : dict_type) | All | Debug | Version (long : bool).
Definition mode_text (m : split_mode) : text := match m with A => txt "A" | B => txt "B" | C => txt "C" end.
Definition type_text (t : dict_type) : text := match t with Small => txt "small" | Core => txt "core" | Full => txt "full" end.
(** How they are written *)
Definition written (o : tokenize_option) : list text :=
  match o with
  | Setting f => [txt "-r"; f]
  | Mode m => [txt "-m"; mode_text m]
  | Output f => [txt "-o"; f]
  | Type_ t => [txt "-s"; type_text t]
  | All => [txt "-a"]
  | Debug => [txt "-d"]
  | Version false => [txt "-v"]
  | Version true => [txt "--version"]
  end.
Definition option_ok (o : tokenize_option) : Prop := match o with Setting f | Output f => no_option f | _ => True end.

(** ** The options of `sudachipy build` and of `sudachipy ubuild` *)
Inductive build_option := To (file : text) | About (description : text) | Matrix (file : text).
Definition bwritten (o : build_option) : list text :=
  match o with To f => [txt "-o"; f] | About s => [txt "-d"; s] | Matrix f => [txt "-m"; f] end.
Definition boption_ok (o : build_option) : Prop := match o with To f | About f | Matrix f => no_option f end.
Inductive ubuild_option := UTo (file : text) | UAbout (description : text) | System (file : text).
Definition uwritten (o : ubuild_option) : list text :=
  match o with UTo f => [txt "-o"; f] | UAbout s => [txt "-d"; s] | System f => [txt "-s"; f] end.
Definition uoption_ok (o : ubuild_option) : Prop := match o with UTo f | UAbout f | System f => no_option f end.

(** ** What counts of options that are given more than once: the last one *)
Fixpoint last_of {O V} (f : O -> option V) (os : list O) : option V :=
  match os with
  | [] => None
  | o :: r => match last_of f r with Some v => Some v | None => f o end
  end.
Definition given {O} (f : O -> bool) (os : list O) : bool := existsb f os.
Definition or_else {V} (x : option V) (d : V) : V := match x with Some v => v | None => d end.

(** ** The names of the commands *)
Definition names : list text := [txt "tokenize"; txt "build"; txt "ubuild"].

(** ** The arguments of a run: the options in any order, each any number of times, and the
    files together, before, after or between the options *)
Definition tokenize_args (args : list text) (os : list tokenize_option) (files : list text) : Prop :=
  exists (named : bool) os1 os2,
    os = os1 ++ os2
    /\ args = (if named then [txt "tokenize"] else []) ++ flat_map written os1 ++ files ++ flat_map written os2
    /\ (named = false -> forall n, In n names -> ~ In n args)
    /\ Forall option_ok os /\ Forall no_option files.
Definition build_args (args : list text) (os : list build_option) (files : list text) : Prop :=
  exists os1 os2,
    os = os1 ++ os2
    /\ args = txt "build" :: flat_map bwritten os1 ++ files ++ flat_map bwritten os2
    /\ Forall boption_ok os /\ Forall no_option files /\ files <> [] /\ exists f, In (Matrix f) os.
Definition ubuild_args (args : list text) (os : list ubuild_option) (files : list text) : Prop :=
  exists os1 os2,
    os = os1 ++ os2
    /\ args = txt "ubuild" :: flat_map uwritten os1 ++ files ++ flat_map uwritten os2
    /\ Forall uoption_ok os /\ Forall no_option files /\ files <> [].

(** The option strings of the tool *)
Definition option_strings : list text :=
  [txt "-h"; txt "--help"; txt "-r"; txt "-m"; txt "-o"; txt "-s"; txt "-a"; txt "-d"; txt "-v"; txt "--version"].

(** What an option sets *)
Definition setting_of o := match o with Setting f => Some f | _ => None end.
Definition mode_of o := match o with Mode m => Some (mode_text m) | _ => None end.
Definition output_of o := match o with Output f => Some f | _ => None end.
Definition type_of o := match o with Type_ t => Some (type_text t) | _ => None end.
Definition is_all o := match o with All => true | _ => false end.
Definition is_debug o := match o with Debug => true | _ => false end.
Definition is_version o := match o with Version _ => true | _ => false end.
Definition to_of o := match o with To f => Some f | _ => None end.
Definition about_of o := match o with About s => Some s | _ => None end.
Definition matrix_of o := match o with Matrix f => Some f | _ => None end.
Definition uto_of o := match o with UTo f => Some f | _ => None end.
Definition uabout_of o := match o with UAbout s => Some s | _ => None end.
Definition system_of o := match o with System f => Some f | _ => None end.
