(** What the options of the commands choose.  Does not use the model of the commands. *)
From Coq Require Import String Ascii List ZArith.
From Verif Require Import Base M_Tokenizer M_Command S_Resource.
Import ListNotations.

(** The system dictionary of ubuild: the one of the option -s, unless that is missing or empty;
    then the one of the settings *)
Definition system_file (default : res text) (given : option text) (path : text) : Prop :=
  given = Some path /\ path <> [] \/ (given = None \/ given = Some []) /\ default = Ok path.

(** The modes and their names; everything that is not A or B is C. *)
Definition mode_named (name : text) (md : mode) : Prop :=
  match md with
  | ModeA => name = txt "A"
  | ModeB => name = txt "B"
  | ModeC => name <> txt "A" /\ name <> txt "B"
  end.
