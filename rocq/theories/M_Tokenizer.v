(** Model of sudachipy/tokenizer.pyx. *)
From Coq Require Import List ZArith Lia Bool Arith.
From Verif Require Import Base Utf8 M_Builder M_InputText M_Lattice M_Oov.
Import ListNotations.
Open Scope Z_scope.

(** What a Python generator or a loop produced before it ended normally ([None])
    or with an exception. *)
Definition gen (A : Type) : Type := list A * option exn.

(** tokenizer.pyx:83: [SplitMode] *)
Inductive mode := ModeA | ModeB | ModeC.

(** ** Building the lattice from candidates *)
Section build.
Variable view : Z -> Z -> option Z.
Variable eosp : Z * Z * Z.
(** [input_.can_bow(i)] *)
Variable bow : nat -> res bool.
(** The nodes inserted at [i] (tokenizer.pyx:46-72), in order. *)
Variable cands : nat -> gen wnode.

(** Insertions in sequence; on an exception the lattice keeps what was done. *)
Fixpoint insert_all (lat : lattice) (ws : list wnode) : lattice * option exn :=
  match ws with
  | [] => (lat, None)
  | w :: r =>
    match lat_insert view lat w with
    | Ok lat' => insert_all lat' r
    | Err e => (lat, Some e)
    end
  end.

(** tokenizer.pyx:43-72: one iteration of the loop over the positions *)
Definition build_at (lat : lattice) (i : nat) : lattice * option exn :=
  match bow i with
  | Err e => (lat, Some e)
  | Ok false => (lat, None)
  | Ok true =>
    match has_previous_node lat i with
    | Err e => (lat, Some e)
    | Ok false => (lat, None)
    | Ok true =>
      let '(ws, e) := cands i in
      match insert_all lat ws with
      | (lat', Some e') => (lat', Some e')
      | (lat', None) => (lat', e)
      end
    end
  end.

(** tokenizer.pyx:43-72: the positions [i], ..., [i+k-1] *)
Fixpoint build_from (lat : lattice) (i k : nat) : lattice * option exn :=
  match k with
  | O => (lat, None)
  | S k' =>
    match build_at lat i with
    | (lat', Some e) => (lat', Some e)
    | (lat', None) => build_from lat' (S i) k'
    end
  end.

(** tokenizer.pyx:32-73.  The function is declared [cdef void]: depending on the
    Cython version an exception is passed on, or printed and dropped, and in the
    latter case get_best_path raises AttributeError because the end of the sentence
    is not connected.  Modelled as passed on. *)
Definition build_lattice (lat : lattice) (n : nat) : lattice * option exn :=
  match build_from (lat_resize eosp lat n) 0 n with
  | (lat', Some e) => (lat', Some e)
  | (lat', None) =>
    match connect_eos view lat' with
    | Ok lat'' => (lat'', None)
    | Err e => (lat', Some e)
    end
  end.
End build.

(** ** The candidates *)
Section cands.
(** [lexicon.lookup(bytes, i)] *)
Variable lookup : bytes -> nat -> gen (Z * nat).
(** [lexicon.lexicons[w >> 28].word_params._array_view[(0x0FFFFFFF & w) * 3 : ... + 3]] *)
Variable params : Z -> res (Z * Z * Z).
Variable providers : list provider.

(** tokenizer.pyx:48-58: the dictionary words found at [i] *)
Fixpoint lex_words (it : input_text) (i : nat) (l : list (Z * nat)) : gen wnode :=
  match l with
  | [] => ([], None)
  | (wid, e) :: r =>
    match (if (e <? length (it_bytes it))%nat then can_bow it e else Ok true) with
    | Err x => ([], Some x)
    | Ok false => lex_words it i r
    | Ok true =>
      match ('(lf, rt, c) <- params wid ;; lex_node lf rt c wid) with
      | Err x => ([], Some x)
      | Ok n => let '(ns, x) := lex_words it i r in (set_range n i e :: ns, x)
      end
    end
  end.

(** tokenizer.pyx:62-65: the nodes of the providers in turn; each is told whether
    there are words so far. *)
Fixpoint oov_words (ps : list provider) (it : input_text) (i : nat) (has_words : bool) : gen wnode :=
  match ps with
  | [] => ([], None)
  | p :: r =>
    match get_oov p it i has_words with
    | Err x => ([], Some x)
    | Ok ns =>
      let '(ms, x) := oov_words r it i (has_words || match ns with [] => false | _ => true end) in
      (ns ++ ms, x)
    end
  end.

(** [lst[-1]]; tokenizer.pyx:117-118: the attribute does not exist without providers *)
Definition default_oov (it : input_text) (i : nat) : res (list wnode) :=
  match rev providers with
  | [] => Err EAttribute
  | p :: _ => get_oov p it i false
  end.

(** tokenizer.pyx:46-72 *)
Definition candidates (it : input_text) (i : nat) : gen wnode :=
  let '(found, x0) := lookup (it_bytes it) i in
  let '(ws, x1) := lex_words it i found in
  match x1 with
  | Some x => (ws, Some x)
  | None =>
    match x0 with
    | Some x => (ws, Some x)
    | None =>
      match get_cats_at it i with
      | Err x => (ws, Some x)
      | Ok cats =>
        let '(os, x2) := if cat_mem NOOOVBOW cats then ([], None)
                         else oov_words providers it i (match ws with [] => false | _ => true end) in
        match x2 with
        | Some x => (ws ++ os, Some x)
        | None =>
          match ws ++ os with
          | [] =>
            match default_oov it i with
            | Err x => ([], Some x)
            | Ok [] => ([], Some ERuntime)
            | Ok ds => (ds, None)
            end
          | l => (l, None)
          end
        end
      end
    end
  end.
End cands.

(** ** Splitting and the whole analysis *)
Section tokenize.
Variable view : Z -> Z -> option Z.
Variable bosp eosp : Z * Z * Z.
Variable category : Z -> list cat.
Variable lookup : bytes -> nat -> gen (Z * nat).
Variable params : Z -> res (Z * Z * Z).
Variable lexinfo : Z -> res word_info.
Variable input_plugins : list (builder -> res builder).
Variable providers : list provider.
Variable rewrite_plugins : list (input_text -> list wnode -> lattice -> res (list wnode)).

(** tokenizer.pyx:184-190: the nodes of one split word *)
Fixpoint split_nodes (offset : nat) (wids : list Z) : res (list wnode) :=
  match wids with
  | [] => Ok []
  | wid :: r =>
    n <- lex_node 0 0 0 wid ;;
    wi <- node_info lexinfo n ;;
    ns <- split_nodes (offset + wi_length wi) r ;;
    Ok (set_range n offset (offset + wi_length wi) :: ns)
  end.

(** tokenizer.pyx:177-190: one word *)
Definition split_one (m : mode) (w : wnode) : res (list wnode) :=
  wi <- node_info lexinfo w ;;
  let wids := match m with ModeA => wi_a wi | _ => wi_b wi end in
  if (length wids <=? 1)%nat then Ok [w] else split_nodes (w_begin w) wids.

(** tokenizer.pyx:172-191 *)
Definition split_path (m : mode) (path : list wnode) : res (list wnode) :=
  match m with
  | ModeC => Ok path
  | _ => nss <- mapM (split_one m) path ;; Ok (concat nss)
  end.

(** tokenizer.pyx:139-142 *)
Definition prepare (t : text) : res input_text :=
  bd <- foldM (fun bd p => p bd) (builder_init t) input_plugins ;;
  build category bd.

(** tokenizer.pyx:146-151: what [_build_lattice] and [get_best_path] do to the
    lattice, and the path *)
Definition analyse (lat : lattice) (it : input_text) : lattice * res (list wnode) :=
  match build_lattice view eosp (can_bow it) (candidates lookup params providers it) lat (length (it_bytes it)) with
  | (lat', Some e) => (lat', Err e)
  | (lat', None) => (lat', get_best_path lat')
  end.

(** tokenizer.pyx:120-167.  The state is the lattice of the tokenizer.  [None]: the
    text was empty and so is the morpheme list.  Otherwise the analysed text and the
    path.  An exception leaves the lattice as it is at that moment. *)
Definition tokenize (lat : lattice) (t : text) (m : mode) : lattice * res (option (input_text * list wnode)) :=
  match t with
  | [] => (lat, Ok None)
  | _ =>
    match prepare t with
    | Err e => (lat, Err e)
    | Ok it =>
      match analyse lat it with
      | (lat1, Err e) => (lat1, Err e)
      | (lat1, Ok path) =>
        match foldM (fun p plugin => plugin it p lat1) path rewrite_plugins with
        | Err e => (lat1, Err e)
        | Ok path1 =>
          match lat_clear lat1 with
          | Err e => (lat1, Err e)
          | Ok lat2 =>
            match split_path m path1 with
            | Err e => (lat2, Err e)
            | Ok path2 => (lat2, Ok (Some (it, path2)))
            end
          end
        end
      end
    end
  end.
End tokenize.

(** tokenizer.pyx:101-118: what a tokenizer is made of (and the outside functions
    it calls). *)
Record config := Config {
  cf_view : Z -> Z -> option Z;
  cf_category : Z -> list cat;
  cf_lookup : bytes -> nat -> gen (Z * nat);
  cf_params : Z -> res (Z * Z * Z);
  cf_lexinfo : Z -> res word_info;
  cf_inputs : list (builder -> res builder);
  cf_providers : list provider;
  cf_rewrites : list (input_text -> list wnode -> lattice -> res (list wnode));
}.

(** grammar.py:21-22: _BOS_PARAMETER, _EOS_PARAMETER *)
Definition bos_parameter : Z * Z * Z := (0, 0, 0).
Definition eos_parameter : Z * Z * Z := (0, 0, 0).

(** A new tokenizer's lattice *)
Definition new_lattice : lattice := lattice_init bos_parameter.

(** [Tokenizer.tokenize] *)
Definition run (cfg : config) (lat : lattice) (t : text) (m : mode)
  : lattice * res (option (input_text * list wnode)) :=
  tokenize (cf_view cfg) eos_parameter (cf_category cfg) (cf_lookup cfg) (cf_params cfg) (cf_lexinfo cfg)
    (cf_inputs cfg) (cf_providers cfg) (cf_rewrites cfg) lat t m.

(** The three stages of [tokenize], by configuration *)
Definition run_prepare (cfg : config) := prepare (cf_category cfg) (cf_inputs cfg).
Definition run_candidates (cfg : config) := candidates (cf_lookup cfg) (cf_params cfg) (cf_providers cfg).
Definition run_analyse (cfg : config) :=
  analyse (cf_view cfg) eos_parameter (cf_lookup cfg) (cf_params cfg) (cf_providers cfg).
