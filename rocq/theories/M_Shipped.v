(** A tokenizer configured with the plugins that come with SudachiPy
    (resources/sudachi.json, plugin/*/utils.py). *)
From Coq Require Import List ZArith Bool Arith.
From Verif Require Import Base Utf8 M_Builder M_InputText M_InputPlugins M_Lattice M_Oov M_Tokenizer M_NumericParser M_PathRewrite.
Import ListNotations.

(** plugin/input_text/{default_input_text_plugin,prolongedsoundmark}.py *)
Inductive input_plugin := DefaultInput (c : default_cfg) | SoundMarks (c : psm_cfg).

(** config.py:100-121 and dictionary.py:31-63: what settings and dictionary files
    determine; [s_lower] and [s_nfkc] are str.lower() of a character and
    unicodedata.normalize('NFKC', _). *)
Record settings := Settings {
  s_view : Z -> Z -> option Z;
  s_category : Z -> list cat;
  s_lookup : bytes -> nat -> gen (Z * nat);
  s_params : Z -> res (Z * Z * Z);
  s_lexinfo : Z -> res word_info;
  s_lower : Z -> text;
  s_nfkc : text -> text;
  s_inputs : list input_plugin;
  s_providers : list provider;
  s_rewriters : list rewriter;
}.

Definition run_input (s : settings) (p : input_plugin) : builder -> res builder :=
  match p with
  | DefaultInput c => default_rewrite (s_lower s) (s_nfkc s) c
  | SoundMarks c => psm_rewrite c
  end.

(** dictionary.py:98-102: the tokenizer made by [Dictionary.create] *)
Definition shipped (s : settings) : config :=
  Config (s_view s) (s_category s) (s_lookup s) (s_params s) (s_lexinfo s) (map (run_input s) (s_inputs s))
    (s_providers s) (map (rewrite_with (s_lexinfo s)) (s_rewriters s)).
