(** C60 and C61: settings and the command line. *)
From Coq Require Import List ZArith Lia Bool Arith.
From Verif Require Import Base Utf8 M_Builder M_Lattice M_Oov M_Tokenizer M_DicBuilder P_DicFormat P_DicOpen P_DicGrammar P_DicSource P_DicToy M_Front.
Import ListNotations.
Open Scope Z_scope.

(** ** C60 *)
Lemma conf_set_same c key v : conf_get (conf_set c key v) key = Some v.
Proof.
  unfold conf_get, conf_set. destruct (existsb (fun x => teqb (fst x) key) c) eqn:E.
  - induction c as [|(k & x) c IH]; [discriminate E|]. cbn [existsb fst] in E. cbn [map find fst]. destruct (teqb k key) eqn:K; cbn [fst].
    + rewrite K. reflexivity.
    + rewrite K. apply IH. exact E.
  - induction c as [|(k & x) c IH]; cbn [app find fst snd].
    + rewrite (proj2 (teqb_eq key key) eq_refl : teqb key key = true). reflexivity.
    + cbn [existsb fst] in E. apply orb_false_iff in E as [E1 E2]. rewrite E1. apply IH. exact E2.
Qed.
Lemma conf_set_other c key v key' : key' <> key -> conf_get (conf_set c key v) key' = conf_get c key'.
Proof.
  intros N. unfold conf_get, conf_set.
  assert (NK : teqb key key' = false) by (apply not_true_iff_false; intros X; apply teqb_eq in X; congruence).
  destruct (existsb (fun x => teqb (fst x) key) c).
  - induction c as [|(k & x) c IH]; [reflexivity|]. cbn [map find fst]. destruct (teqb k key) eqn:K; cbn [fst].
    + apply teqb_eq in K. subst k. rewrite NK. exact IH.
    + destruct (teqb k key'); [reflexivity|exact IH].
  - induction c as [|(k & x) c IH]; cbn [app find fst snd]; [now rewrite NK|]. destruct (teqb k key'); [reflexivity|exact IH].
Qed.

Section config.
Variable load : text -> res conf.
Variable installed : text -> option text.
Variable dirname : text -> text.
Variable join : text -> text -> text.
Variable is_absolute : text -> bool.
Variable DEFAULT_SETTINGFILE : text.
Variable mentions : text -> json -> res bool.

(** What is chosen as system dictionary: [chosen dict_type c v] - with the configuration [c]
    the setting becomes [v]. *)
Definition named (c : conf) (v : json) : Prop := conf_get c DICT_PATH_KEY = Some v /\ v <> JNull /\ v <> JStr [] /\ v <> JBool false /\ v <> JNum 0 /\ v <> JList [] /\ v <> JObj [].
Definition chosen (dict_type : option text) (c : conf) (v : json) : Prop :=
  match dict_type with
  | Some t => In t [SMALL; CORE; FULL] /\ exists p, installed t = Some p /\ v = JStr p
  | None => named c v \/ ((forall v', ~ named c v') /\ exists p, installed CORE = Some p /\ v = JStr p)
  end.

Lemma truthy_named c v : conf_get c DICT_PATH_KEY = Some v -> (truthy v = true <-> named c v).
Proof.
  intros E. unfold named. split.
  - intros T. split; [exact E|]. repeat split; intros ->; discriminate T.
  - intros (_ & A & B & C & D & F & G). destruct v as [|[|]|z|[|? ?]|[|? ?]|[|? ?]]; try reflexivity; try congruence.
    cbn [truthy]. apply negb_true_iff, Z.eqb_neq. congruence.
Qed.

(** After a successful set-up, whatever the state before: the configuration of the file, with
    the chosen system dictionary *)
Theorem C60_set_up st config_path resource_dir dict_type st' :
  set_up load installed dirname DEFAULT_SETTINGFILE mentions st config_path resource_dir dict_type = (st', Ok tt) ->
  exists c c', load (match config_path with Some ((_ :: _) as p) => p | _ => DEFAULT_SETTINGFILE end) = Ok c /\
    st_active st' = true /\ st_dict st' = Some c' /\
    (exists v, conf_get c' DICT_PATH_KEY = Some v /\ chosen dict_type c v) /\
    (forall key, key <> DICT_PATH_KEY -> conf_get c' key = conf_get c key) /\
    st_resource_dir st' = Some (match resource_dir with Some ((_ :: _) as d) => d
      | _ => dirname (match config_path with Some ((_ :: _) as p) => p | _ => DEFAULT_SETTINGFILE end) end).
Proof.
  unfold set_up. fold (or_else config_path DEFAULT_SETTINGFILE). set (cp := or_else config_path DEFAULT_SETTINGFILE).
  fold (or_else resource_dir (dirname cp)). destruct (load cp) as [c|]; [|discriminate]. unfold find_dict_path.
  destruct dict_type as [t|].
  - destruct (existsb _ _) eqn:T; [|discriminate]. destruct (match conf_get c DICT_PATH_KEY with Some _ => _ | None => _ end); [|discriminate].
    destruct (installed t) as [p|] eqn:I; [|discriminate]. intros H. injection H as <-. exists c, (conf_set c DICT_PATH_KEY (JStr p)).
    split; [reflexivity|]. split; [reflexivity|]. split; [reflexivity|]. split.
    { exists (JStr p). split; [apply conf_set_same|]. split; [|eauto]. apply existsb_exists in T as (x & Hx & E). apply teqb_eq in E. now subst x. }
    split; [|reflexivity]. intros key N. now apply conf_set_other.
  - destruct (conf_get c DICT_PATH_KEY) as [v|] eqn:V.
    + destruct (truthy v) eqn:T.
      * intros H. injection H as <-. exists c, c. split; [reflexivity|]. split; [reflexivity|]. split; [reflexivity|]. split.
        { exists v. split; [exact V|]. left. now apply truthy_named. }
        split; [auto|reflexivity].
      * destruct (installed CORE) as [p|] eqn:I; [|discriminate]. intros H. injection H as <-. exists c, (conf_set c DICT_PATH_KEY (JStr p)).
        split; [reflexivity|]. split; [reflexivity|]. split; [reflexivity|]. split.
        { exists (JStr p). split; [apply conf_set_same|]. right. split; [|eauto]. intros v' N. pose proof N as (E & _). rewrite V in E. injection E as <-.
          apply truthy_named in N; congruence. }
        split; [|reflexivity]. intros key N. now apply conf_set_other.
    + destruct (installed CORE) as [p|] eqn:I; [|discriminate]. intros H. injection H as <-. exists c, (conf_set c DICT_PATH_KEY (JStr p)).
      split; [reflexivity|]. split; [reflexivity|]. split; [reflexivity|]. split.
      { exists (JStr p). split; [apply conf_set_same|]. right. split; [|eauto]. intros v' (E & _). congruence. }
      split; [|reflexivity]. intros key N. now apply conf_set_other.
Qed.

(** So the dictionary that is opened: the one of [dict_type], else the one of the configuration
    (from the resource directory unless absolute), else the core one *)
Theorem C60_dictionary_opened st config_path resource_dir dict_type st' :
  (forall t p, installed t = Some p -> is_absolute p = true) ->
  set_up load installed dirname DEFAULT_SETTINGFILE mentions st config_path resource_dir dict_type = (st', Ok tt) ->
  exists c d, st_resource_dir st' = Some d /\
  match dict_type with
  | Some t => In t [SMALL; CORE; FULL] /\ exists p, installed t = Some p /\ system_dict_path join is_absolute st' = Ok p
  | None =>
    load (match config_path with Some ((_ :: _) as p) => p | _ => DEFAULT_SETTINGFILE end) = Ok c /\
    forall p, (conf_get c DICT_PATH_KEY = Some (JStr p) -> p <> [] -> system_dict_path join is_absolute st' = Ok (if is_absolute p then p else join d p)) /\
              (conf_get c DICT_PATH_KEY = None -> installed CORE = Some p -> system_dict_path join is_absolute st' = Ok p)
  end.
Proof.
  intros A H. apply C60_set_up in H as (c & c' & Hc & _ & Hd & (v & Hv & Ch) & _ & Hr). eexists c, _. split; [exact Hr|].
  unfold system_dict_path, to_absolute_resource_path. rewrite Hd, Hr, Hv. destruct dict_type as [t|]; cbn [chosen] in Ch.
  - destruct Ch as (T & p & I & ->). split; [exact T|]. exists p. split; [exact I|]. cbn [as_path bind]. now rewrite (A _ _ I).
  - split; [exact Hc|]. intros p. split.
    + intros E N. assert (NM : named c (JStr p)) by (split; [exact E|]; repeat split; congruence).
      destruct Ch as [(E' & _)|(X & _)]; [|exfalso; eapply X; eauto]. rewrite E in E'. injection E' as <-. reflexivity.
    + intros E I. destruct Ch as [(E' & _)|(_ & q & Iq & ->)]; [congruence|]. rewrite I in Iq. injection Iq as <-. cbn [as_path bind]. now rewrite (A _ _ I).
Qed.

(** The user dictionaries are those of the configuration file, in its order; there need not
    be any. *)
Theorem C60_user_dictionaries st config_path resource_dir dict_type st' c d :
  set_up load installed dirname DEFAULT_SETTINGFILE mentions st config_path resource_dir dict_type = (st', Ok tt) ->
  load (match config_path with Some ((_ :: _) as p) => p | _ => DEFAULT_SETTINGFILE end) = Ok c -> st_resource_dir st' = Some d ->
  (conf_get c USER_DICT_PATH_KEY = None -> user_dict_paths join is_absolute st' = Ok []) /\
  (forall ps, conf_get c USER_DICT_PATH_KEY = Some (JList (map JStr ps)) ->
     user_dict_paths join is_absolute st' = Ok (map (fun p => if is_absolute p then p else join d p) ps)).
Proof.
  intros H Hc Hd. destruct (C60_set_up _ _ _ _ _ H) as (c0 & c' & Hc0 & _ & D & _ & K & _). rewrite Hc in Hc0. injection Hc0 as <-.
  unfold user_dict_paths. rewrite D, Hd, (K USER_DICT_PATH_KEY) by discriminate. split; [intros ->; reflexivity|]. intros ps ->.
  induction ps as [|p ps IH]; [reflexivity|]. cbn [map mapM as_path bind]. rewrite IH. reflexivity.
Qed.

(** Any other [dict_type] is a ValueError (once the configuration could be read). *)
Theorem C60_unknown_type st config_path resource_dir t c :
  load (match config_path with Some ((_ :: _) as p) => p | _ => DEFAULT_SETTINGFILE end) = Ok c -> ~ In t [SMALL; CORE; FULL] ->
  snd (set_up load installed dirname DEFAULT_SETTINGFILE mentions st config_path resource_dir (Some t)) = Err EValue.
Proof.
  intros Hc N. assert (Hc2 : load (or_else config_path DEFAULT_SETTINGFILE) = Ok c) by exact Hc. unfold set_up. cbv zeta. rewrite Hc2. destruct (existsb _ _) eqn:T; [|reflexivity].
  exfalso. apply N. apply existsb_exists in T as (x & Hx & E). apply teqb_eq in E. now subst x.
Qed.

(** Earlier set-ups leave no trace. *)
Theorem C60_history_free st1 st2 config_path resource_dir dict_type st' r :
  set_up load installed dirname DEFAULT_SETTINGFILE mentions st1 config_path resource_dir dict_type = (st', Ok r) ->
  set_up load installed dirname DEFAULT_SETTINGFILE mentions st2 config_path resource_dir dict_type = (st', Ok r).
Proof. unfold set_up. destruct (load _); [auto|discriminate]. Qed.
End config.
Print Assumptions C60_set_up.
Print Assumptions C60_dictionary_opened.
Print Assumptions C60_unknown_type.
Print Assumptions C60_user_dictionaries.
Print Assumptions C60_history_free.

(** A configuration that names /a: with and without dict_type; one that names nothing *)
Example C60_nonvacuous :
  let load p := if teqb p [49] then Ok [(DICT_PATH_KEY, JStr [97]); (CHAR_DEF_KEY, JStr [98])] else if teqb p [50] then Ok [(DICT_PATH_KEY, JStr [])] else Err EIO in
  let installed t := if teqb t CORE || teqb t SMALL then Some (47 :: t) else None in
  let join a b := a ++ 47 :: b in let absolute p := match p with 47 :: _ => true | _ => false end in
  let go st p t := set_up load installed (fun _ => [100]) [49] (fun _ _ => Ok false) st p None t in
  let path r := system_dict_path join absolute (fst r) in
  (forall t p, installed t = Some p -> absolute p = true) /\
  path (go fresh None None) = Ok [100; 47; 97] /\ path (go (fst (go fresh None None)) None (Some SMALL)) = Ok (47 :: SMALL) /\
  path (go fresh (Some [50]) None) = Ok (47 :: CORE) /\ snd (go fresh None (Some FULL)) = Err EException /\ snd (go fresh None (Some [97])) = Err EValue.
Proof. cbn zeta. split; [|repeat split]. intros t p H. destruct (_ || _); [injection H as <-; reflexivity|discriminate H]. Qed.

(** ** C61 *)
(** Cutting an output: its lines, grouped up to each EOS; what follows the last EOS is left. *)
Fixpoint group (acc : list text) (lines : list text) : list (list text) :=
  match lines with
  | [] => []
  | l :: r => if teqb l EOS then rev acc :: group [] r else group (l :: acc) r
  end.
Definition cut (out : text) : list (list text) := group [] (split_on NL out).

Lemma split_on_line l r : ~ In NL l -> split_on NL (l ++ NL :: r) = l :: split_on NL r.
Proof.
  induction l as [|c l IH]; intros N; cbn [app split_on].
  - now rewrite Z.eqb_refl.
  - replace (c =? NL) with false by (symmetry; apply Z.eqb_neq; intros ->; apply N; now left).
    rewrite IH by (intros X; apply N; now right). reflexivity.
Qed.

Lemma universal_no_cr t : ~ In CR (universal t).
Proof.
  remember (length t) as n eqn:E. assert (L : (length t <= n)%nat) by lia. clear E. revert t L. induction n as [|n IH]; intros t L.
  { destruct t; [intros []|cbn [length] in L; lia]. }
  destruct t as [|c r]; [intros []|]. cbn [universal]. cbn [length] in L. destruct (c =? CR) eqn:E; Zbool.
  - intros [X|X]; [discriminate X|]. revert X. destruct r as [|c' r']; [apply IH; cbn [length]; lia|]. cbn [length] in L. destruct (c' =? NL); apply IH; cbn [length]; lia.
  - intros [X|X]; [congruence|]. revert X. apply IH. lia.
Qed.

Lemma lines_from_shape t : forall acc, ~ In NL acc -> Forall (fun l => exists b, ~ In NL b /\ (l = b \/ l = b ++ [NL])) (lines_from acc t).
Proof.
  induction t as [|c t IH]; intros acc N; cbn [lines_from].
  - destruct acc as [|x acc]; constructor; [|constructor]. exists (rev (x :: acc)). split; [|auto]. intros X. apply N. now apply in_rev.
  - destruct (c =? NL) eqn:E; Zbool.
    + constructor; [|apply IH; intros []]. subst c. exists (rev acc). split; [intros X; apply N; now apply in_rev|]. right. reflexivity.
    + apply IH. intros [X|X]; [congruence|auto].
Qed.

Lemma rstrip_shape b : ~ In NL b -> rstrip b = b /\ rstrip (b ++ [NL]) = b.
Proof.
  intros N. unfold rstrip.
  set (go := fix go (l : text) := match l with c :: l' => if c =? NL then go l' else l | [] => [] end).
  assert (G : go (rev b) = rev b).
  { destruct (rev b) as [|c l] eqn:E; [reflexivity|]. cbn [go]. replace (c =? NL) with false; [reflexivity|].
    symmetry. apply Z.eqb_neq. intros ->. apply N. apply in_rev. rewrite E. now left. }
  split; [rewrite G; apply rev_involutive|]. rewrite rev_app_distr. cbn [rev app go]. rewrite Z.eqb_refl. fold go. rewrite G. apply rev_involutive.
Qed.

(** The lines that are analysed have no line ends in them. *)
Lemma stripped_lines files : Forall (fun l => ~ In NL l) (map rstrip (input_lines files)).
Proof.
  unfold input_lines. rewrite Forall_forall. intros l H. apply in_map_iff in H as (l0 & <- & H). apply in_concat in H as (ls & Hls & H).
  apply in_map_iff in Hls as (t & <- & _). pose proof (lines_from_shape (universal t) [] (fun x => x)) as S. rewrite Forall_forall in S.
  destruct (S _ H) as (b & N & [-> | ->]); destruct (rstrip_shape b N) as [E1 E2]; congruence.
Qed.

Section run.
Variable str : Z -> text.
Variable analyse : text -> gen fields.
Variable print_all : bool.
Hypothesis str_plain : forall z, Forall (fun c => c = 45 \/ 48 <= c <= 57) (str z).

Lemma not_in_join c l : Forall (fun w => ~ In c w) l -> forall s, s <> c -> ~ In c (join_with s l).
Proof.
  induction 1 as [|w l N F IH]; intros s Hs; [intros []|]. cbn [join_with]. destruct l as [|w' l]; [exact N|].
  intros X. apply in_app_or in X as [X|[X|X]]; [auto|congruence|]. revert X. apply IH. exact Hs.
Qed.
Lemma str_no_nl z : ~ In NL (str z).
Proof. intros X. pose proof (str_plain z) as P. rewrite Forall_forall in P. apply P in X. unfold NL in X. lia. Qed.

(** No printed form of the morpheme has a line end. *)
Definition plain_forms (m : fields) : Prop := Forall (fun w => ~ In NL w) (f_pos m) /\ ~ In NL (f_norm m) /\ ~ In NL (f_dic m) /\ ~ In NL (f_reading m).

Lemma line_of_no_nl m : ~ In NL (f_surface m) -> plain_forms m -> ~ In NL (line_of str print_all m).
Proof.
  intros S (P & N & D & R). unfold line_of. apply not_in_join; [|discriminate]. apply Forall_app. split.
  - repeat constructor; auto. apply not_in_join; [exact P|discriminate].
  - destruct print_all; [|constructor]. apply Forall_app. split.
    + repeat constructor; auto; [apply str_no_nl|]. intros X. apply in_app_or in X as [[X|[]]|X]; [discriminate X|].
      apply in_app_or in X as [X|[X|[]]]; [|discriminate X]. revert X. apply not_in_join; [|discriminate].
      rewrite Forall_forall. intros w Hw. apply in_map_iff in Hw as (z & <- & _). apply str_no_nl.
    + destruct (f_oov m); [|constructor]. repeat constructor. intros X. unfold OOV, NL in X. cbn in X. lia.
Qed.
Lemma line_of_tab m : In TAB (line_of str print_all m).
Proof. unfold line_of. cbn [app join_with]. apply in_or_app. right. now left. Qed.
Lemma line_of_not_eos m : teqb (line_of str print_all m) EOS = false.
Proof.
  apply not_true_iff_false. intros X. apply teqb_eq in X. pose proof (line_of_tab m) as T. rewrite X in T. cbn in T. unfold TAB in T. lia.
Qed.

Lemma group_lines ms : Forall (fun m => ~ In NL (line_of str print_all m)) ms -> forall acc rest,
  group acc (split_on NL (concat (map (fun m => emit (line_of str print_all m)) ms) ++ rest)) =
  group (rev (map (line_of str print_all) ms) ++ acc) (split_on NL rest).
Proof.
  induction 1 as [|m ms N F IH]; intros acc rest; [reflexivity|]. cbn [map concat rev]. unfold emit at 1.
  rewrite <- !app_assoc. cbn [app]. rewrite split_on_line by exact N. cbn [group]. rewrite line_of_not_eos, IH. reflexivity.
Qed.

(** The output is cut back into the analyses, one for each input line; if the run is broken
    off by an exception, into those of the lines before. *)
Lemma run_cut lines : Forall (fun l => Forall (fun m => ~ In NL (line_of str print_all m)) (fst (analyse (rstrip l)))) lines ->
  let out := run str analyse print_all lines in
  exists n, (n <= length lines)%nat /\ cut (fst out) = map (fun l => map (line_of str print_all) (fst (analyse (rstrip l)))) (firstn n lines) /\
    (snd out = None -> n = length lines).
Proof.
  cbn zeta. unfold cut. induction 1 as [|l lines N F IH]; cbn [run].
  { exists 0%nat. split; [lia|]. split; reflexivity. }
  destruct (analyse (rstrip l)) as [ms e] eqn:A. cbn [fst] in N. destruct e as [e|]; cbn [fst snd].
  - exists 0%nat. split; [lia|]. split; [|discriminate]. rewrite <- (app_nil_r (concat _)), group_lines by exact N. cbn [split_on group firstn map]. reflexivity.
  - destruct (run str analyse print_all lines) as [out' e']. cbn [fst snd] in *. destruct IH as (n & Hn & E & D).
    exists (S n). split; [cbn [length]; lia|]. split; [|intros H; cbn [length]; f_equal; auto].
    rewrite group_lines by exact N. unfold emit. rewrite <- app_assoc. cbn [app]. change (69 :: 79 :: 83 :: NL :: out') with (EOS ++ NL :: out').
    rewrite split_on_line by (intros X; cbn in X; unfold NL in X; lia). cbn [group].
    replace (teqb EOS EOS) with true by reflexivity. cbn [firstn map]. rewrite A. cbn [fst]. rewrite app_nil_r, rev_involutive, E. reflexivity.
Qed.

(** For every input, when surfaces tile the line (C23) and no form in the dictionaries has a
    line end *)
Theorem C61_framing_partial files :
  (forall l, snd (analyse l) = None -> concat (map f_surface (fst (analyse l))) = l) ->
  (forall l m, In m (fst (analyse l)) -> plain_forms m) ->
  let lines := input_lines files in
  let out := run str analyse print_all lines in
  snd out = None ->
  cut (fst out) = map (fun l => map (line_of str print_all) (fst (analyse (rstrip l)))) lines.
Proof.
  intros T P. cbn zeta. intros D.
  assert (NE : forall lines, snd (run str analyse print_all lines) = None -> Forall (fun l => snd (analyse (rstrip l)) = None) lines).
  { induction lines as [|l lines IH]; cbn [run]; [constructor|]. destruct (analyse (rstrip l)) as [ms e] eqn:A. destruct e; [discriminate|].
    destruct (run str analyse print_all lines) as [o' e']. cbn [snd] in *. intros H. constructor; [now rewrite A|auto]. }
  pose proof (NE _ D) as NF. pose proof (stripped_lines files) as SL.
  assert (F : Forall (fun l => Forall (fun m => ~ In NL (line_of str print_all m)) (fst (analyse (rstrip l)))) (input_lines files)).
  { rewrite Forall_forall in *. intros l Hl. rewrite Forall_forall. intros m Hm. apply line_of_no_nl; [|eauto].
    intros X. apply (SL (rstrip l) (in_map _ _ _ Hl)). rewrite <- (T (rstrip l) (NF l Hl)). apply in_concat. exists (f_surface m). split; [|exact X].
    apply in_map. exact Hm. }
  destruct (run_cut _ F) as (n & Hn & E & ND). rewrite E, (ND D), firstn_all. reflexivity.
Qed.

(** With an exception: the analyses of the lines before it *)
Theorem C61_broken_off_partial files :
  (forall l m, In m (fst (analyse l)) -> plain_forms m /\ ~ In NL (f_surface m)) ->
  let lines := input_lines files in
  exists n, (n <= length lines)%nat /\
    cut (fst (run str analyse print_all lines)) = map (fun l => map (line_of str print_all) (fst (analyse (rstrip l)))) (firstn n lines).
Proof.
  intros P. cbn zeta. destruct (run_cut (input_lines files)) as (n & Hn & E & _).
  - rewrite Forall_forall. intros l Hl. rewrite Forall_forall. intros m Hm. destruct (P _ _ Hm). now apply line_of_no_nl.
  - exists n. auto.
Qed.
End run.
Print Assumptions C61_framing_partial.
Print Assumptions C61_broken_off_partial.

(** A normalised form with a line end, which the builder takes from an escape: one input line
    gives the frame of two. *)
Definition nl_form : text := [120; 92; 117; 48; 48; 48; 97; 69; 79; 83; 92; 117; 48; 48; 48; 97; 121].   (* x\u000aEOS\u000ay *)
Theorem C61_line_end_refuted :
  (exists e tb, parse_line SystemDic toy_int [] (toy_row [26481] [49] P1 [1] nl_form star star star) = Ok (e, tb) /\ e_norm e = [120; NL; 69; 79; 83; NL; 121]) /\
  let analyse l := match l with [] => ([], None) | _ => ([Fields l P1 [120; NL; 69; 79; 83; NL; 121] l l 0 [] false], None) end in
  input_lines [[26481]] = [[26481]] /\ length (cut (fst (run (fun _ => [48]) analyse false (input_lines [[26481]])))) = 2%nat.
Proof. split; [do 2 eexists; split; vm_compute; reflexivity|]. split; reflexivity. Qed.
Print Assumptions C61_line_end_refuted.

(** Two files, the first without a final line end, the second with an empty line and \r\n *)
Example C61_nonvacuous :
  let analyse l := (map (fun c => Fields [c] P1 [c] [c] [c] 0 [1; 2] false) l, None : option exn) in
  (forall l, snd (analyse l) = None -> concat (map f_surface (fst (analyse l))) = l) /\
  input_lines [[97; 98]; [99; 13; 10; 10]] = [[97; 98]; [99; 10]; [10]] /\
  map (@length _) (cut (fst (run (fun _ => [48]) analyse true (input_lines [[97; 98]; [99; 13; 10; 10]])))) = [2%nat; 1%nat; 0%nat].
Proof.
  cbn zeta. split; [|split; reflexivity]. intros l _. cbn [fst]. rewrite map_map. cbn [f_surface]. induction l as [|c l IH]; [reflexivity|]. cbn [map concat app]. now rewrite IH.
Qed.
