(** The debug output: lemmas for C83. *)
From Coq Require Import String Ascii List ZArith Lia Bool Arith.
From Verif Require Import Base Utf8 M_Builder M_CharCategory M_InputText M_InputPlugins M_Lattice M_Oov M_Tokenizer M_Morphemes M_NumericParser M_PathRewrite M_Shipped
  M_Bytes M_DicReader M_DicBuilder M_LexiconSet M_Front M_Resource M_Setup M_Command M_Tokenize M_Debug S_Text S_Lattice S_Resource S_Debug
  P_Builder P_InputText P_Lattice P_Tokenizer P_Path P_Config Prop_Tokenizer.
Import ListNotations.
Open Scope list_scope.
Open Scope nat_scope.

(** ** The words of the lattice, from a construction that succeeded *)
Section words.
Variable view : Z -> Z -> option Z.
Variable bosp eosp : Z * Z * Z.
Variable bow : nat -> res bool.
Variable cands : nat -> gen wnode.
Variable n : nat.
Hypothesis cands_ok : forall w, cand_word bow cands n w -> w_begin w < w_end w <= n.
Hypothesis cands_begin : forall i w, In w (fst (cands i)) -> w_begin w = i.
Notation words_inv := (words_inv bosp bow cands n).

Lemma build_from_words k : forall lat i lat', i + k = n -> words_inv (fun x => w_begin x < i) (l_lists lat) ->
  build_from view bow cands lat i k = (lat', None) ->
  words_inv (fun x => w_begin x < n) (l_lists lat') /\ l_eos lat' = l_eos lat.
Proof.
  induction k as [|k IH]; intros lat i lat' Hik I E; cbn [build_from] in E.
  - injection E as <-. replace i with n in I by lia. auto.
  - assert (Hstep : forall lat1, build_at view bow cands lat i = (lat1, None) ->
        words_inv (fun x => w_begin x < S i) (l_lists lat1) /\ l_eos lat1 = l_eos lat).
    { clear E. intros lat1 E. unfold build_at in E. destruct (bow i) as [[|]|] eqn:Eb; [| |discriminate].
      2:{ injection E as <-. split; auto. eapply words_inv_ext; [|exact I].
          intros w r (_ & Hw & _) _ Hlt. destruct (Nat.eq_dec (w_begin w) i) as [Heq|]; [rewrite Heq in Hw; congruence|lia]. }
      pose proof I as (I1 & I2 & I3 & I4).
      unfold has_previous_node in E. destruct (get_lt (l_lists lat) i) as (ls & Els); [lia|]. rewrite Els in E. cbn [bind] in E.
      apply get_ok in Els. destruct ls as [|l ls].
      - injection E as <-. split; auto. eapply words_inv_ext; [|exact I].
        intros w r Hw Hr Hlt. destruct (Nat.eq_dec (w_begin w) i) as [Heq|]; [|lia]. exfalso.
        rewrite Heq in Hr. inversion Hr as [Ea E0|w' r' Hr' Hc' Ea E0]; subst.
        + rewrite <- E0, I2 in Els. discriminate.
        + destruct (I4 w' r' Hc') as (l & (ls & El & Hl) & _); auto.
          { apply cands_ok in Hc'. lia. }
          rewrite E0, Els in El. injection El as <-. contradiction.
      - assert (Hr : exists r, rpath bow cands n r i).
        { destruct i as [|i]; [exists []; constructor|].
          destruct (I3 (S i) l) as (A1 & A2 & (r & A3)); [lia|exists (l :: ls); split; auto; now left|].
          exists (ln_word l :: r). rewrite <- A1. now constructor. }
        destruct Hr as (r & Hr).
        destruct (cands i) as [ws x] eqn:Ec.
        destruct (insert_all_words view bosp eosp bow cands n cands_ok ws (fun x => w_begin x < i) lat i r I) as (lat2 & E1 & J1 & O1); auto.
        { intros w Hw. assert (Hb : w_begin w = i) by (apply cands_begin; now rewrite Ec).
          split; auto. split; [lia|]. rewrite Hb. split; auto. now rewrite Ec. }
        rewrite E1 in E. injection E as <- ->. split; auto.
        eapply words_inv_ext; [|exact J1]. cbn. intros w rw (_ & _ & Hw) _ Hlt.
        destruct (Nat.eq_dec (w_begin w) i) as [Heq|]; [|left; lia].
        right. rewrite Heq, Ec in Hw. exact Hw. }
    destruct (build_at view bow cands lat i) as [lat1 [x|]] eqn:E1; [discriminate|].
    destruct (Hstep _ eq_refl) as (J1 & O1). destruct (IH lat1 (S i) lat' ltac:(lia) J1 E) as (J2 & O2). split; auto. congruence.
Qed.

Lemma build_lattice_words lat lat' : clean bosp lat -> build_lattice view eosp bow cands lat n = (lat', None) ->
  words_inv (fun x => w_begin x < n) (l_lists lat') /\ exists nd, l_eos lat' = Some nd /\ ln_word nd = eos_word eosp n.
Proof.
  intros Hc E. unfold build_lattice in E.
  assert (I : words_inv (fun x => w_begin x < 0) (l_lists (lat_resize eosp lat n))).
  { destruct (resize_shape bosp eosp n lat Hc) as ((A1 & A2 & A3 & A4) & _).
    split; auto. split; auto. split; [|intros; lia].
    intros e l He (ls & El & Hl). exfalso.
    destruct Hc as (Hs & k & Hk1 & Hk2). revert El.
    unfold lat_resize. destruct (_ <? _); cbn [lat_expand l_lists]; rewrite Hk1; destruct e; try lia; cbn;
      [rewrite <- repeat_app|]; intros El; apply nth_error_repeat in El; subst; contradiction. }
  destruct (build_from view bow cands _ 0 n) as [lat1 [x|]] eqn:E1; [discriminate|].
  destruct (build_from_words n _ 0 lat1 eq_refl I E1) as (J & O). unfold connect_eos in E. rewrite O in E. cbn [lat_resize l_eos ln_word] in E.
  destruct (connect_node view (l_lists lat1) (eos_word eosp n)) as [nd|] eqn:EN; [|discriminate]. cbn [bind] in E. injection E as <-. cbn [l_lists l_eos].
  split; [exact J|]. exists nd. split; [reflexivity|].
  unfold connect_node in EN. apply bind_ok in EN as (ls & _ & EN). destruct (connect_loop _ _ _ _) as ((tot & prev) & [|]); injection EN as <-; reflexivity.
Qed.
End words.

(** ** The lines *)
Section lines.
Variable str : Z -> text.
Variable pos_string : Z -> res (list text).
Variable connect : Z -> Z -> res Z.
Variable lexinfo : Z -> res word_info.
Notation dump_line := (dump_line str pos_string connect lexinfo).
Notation dump_nodes := (dump_nodes str pos_string connect lexinfo).
Notation dump_lists := (dump_lists str pos_string connect lexinfo).
Notation dump := (dump str pos_string connect lexinfo).
Notation node_str := (node_str str lexinfo).
Notation dump_path := (dump_path str lexinfo).

Lemma dump_nodes_app lists ws : forall idx ws', dump_nodes lists idx (ws ++ ws') =
  match dump_nodes lists idx ws with
  | (ts, Some e) => (ts, Some e)
  | (ts, None) => let '(ts', e) := dump_nodes lists (idx + length ws) ws' in (ts ++ ts', e)
  end.
Proof.
  induction ws as [|w ws IH]; intros idx ws'; cbn [M_Debug.dump_nodes app length].
  - rewrite Nat.add_0_r. now destruct (dump_nodes lists idx ws').
  - destruct (dump_line lists (S idx) w) as [t|]; [|reflexivity]. rewrite IH. replace (idx + S (length ws)) with (S idx + length ws) by lia.
    destruct (dump_nodes lists (S idx) ws) as [ts [e|]]; [reflexivity|]. now destruct (dump_nodes lists (S idx + length ws) ws').
Qed.

(** the words of the lists [i], ..., 0 *)
Fixpoint listed (lists : list (list lnode)) (i : nat) : list wnode :=
  map ln_word (nth i lists []) ++ match i with O => [] | S j => listed lists j end.

Lemma dump_lists_listed lists : forall i idx, i < length lists -> dump_lists lists idx i = dump_nodes lists idx (listed lists i).
Proof.
  induction i as [|i IH]; intros idx H; cbn [M_Debug.dump_lists listed]; rewrite dump_nodes_app;
    destruct (get_lt lists _ H) as (ns & En); rewrite En; apply get_ok in En; rewrite (nth_error_nth _ _ [] En);
    destruct (dump_nodes lists idx (map ln_word ns)) as [ts [e|]]; try reflexivity.
  - cbn [M_Debug.dump_nodes]. now rewrite app_nil_r.
  - rewrite map_length, IH by lia. reflexivity.
Qed.

Lemma listed_in lists w : forall i, i < length lists ->
  (In w (listed lists i) <-> exists e ls, e <= i /\ nth_error lists e = Some ls /\ In w (map ln_word ls)).
Proof.
  induction i as [|i IH]; intros H; cbn [listed]; destruct (get_lt lists _ H) as (ns & En); apply get_ok in En; rewrite (nth_error_nth _ _ [] En).
  - rewrite app_nil_r. split; [intros X; exists 0, ns; auto|]. intros (e & ls & He & El & X). replace e with 0 in El by lia. rewrite En in El. injection El as <-. exact X.
  - rewrite in_app_iff, IH by lia. split.
    + intros [X|(e & ls & He & El & X)]; [exists (S i), ns; auto|exists e, ls; auto].
    + intros (e & ls & He & El & X). destruct (Nat.eq_dec e (S i)) as [->|]; [left; rewrite En in El; injection El as <-; exact X|right; exists e, ls; split; [lia|auto]].
Qed.

Lemma dump_listed lat nd : l_eos lat = Some nd -> l_size lat < length (l_lists lat) ->
  dump lat = dump_nodes (l_lists lat) 0 (ln_word nd :: listed (l_lists lat) (l_size lat)).
Proof.
  intros E L. unfold M_Debug.dump. rewrite E. change (ln_word nd :: listed (l_lists lat) (l_size lat)) with ([ln_word nd] ++ listed (l_lists lat) (l_size lat)).
  rewrite dump_nodes_app, dump_lists_listed by exact L. reflexivity.
Qed.

Lemma dump_nodes_ok lists ws : forall idx ts, dump_nodes lists idx ws = (ts, None) ->
  length ts = length ws /\ forall k w, nth_error ws k = Some w -> exists d, nth_error ts k = Some d /\ dump_line lists (S (idx + k)) w = Ok d.
Proof.
  induction ws as [|w ws IH]; intros idx ts E; cbn [M_Debug.dump_nodes] in E.
  - injection E as <-. split; [reflexivity|]. now intros [|k].
  - destruct (dump_line lists (S idx) w) as [t|] eqn:El; [|discriminate]. destruct (dump_nodes lists (S idx) ws) as [ts' e] eqn:E'. injection E as <- ->.
    destruct (IH _ _ E') as (L & F). split; [cbn [length]; lia|]. intros [|k] x Hx; cbn [nth_error] in *.
    + injection Hx as <-. exists t. now rewrite Nat.add_0_r.
    + replace (idx + S k) with (S idx + k) by lia. now apply F.
Qed.
Lemma dump_nodes_total lists ws : forall idx, (forall i w, In w ws -> exists d, dump_line lists i w = Ok d) -> exists ts, dump_nodes lists idx ws = (ts, None).
Proof.
  induction ws as [|w ws IH]; intros idx H; cbn [M_Debug.dump_nodes]; [eauto|].
  destruct (H (S idx) w (or_introl eq_refl)) as (d & ->). destruct (IH (S idx)) as (ts & ->); [intros; apply H; now right|]. eauto.
Qed.

Lemma dump_path_ok ws : forall i ts, dump_path i ws = (ts, None) ->
  length ts = length ws /\ forall k w, nth_error ws k = Some w -> exists s, node_str w = Ok s /\ nth_error ts k = Some (strn str (i + k) ++ lit ": " ++ s ++ [0xFFFF%Z]).
Proof.
  induction ws as [|w ws IH]; intros i ts E; cbn [M_Debug.dump_path] in E.
  - injection E as <-. split; [reflexivity|]. now intros [|k].
  - destruct (node_str w) as [t|] eqn:El; [|discriminate]. destruct (dump_path (S i) ws) as [ts' e] eqn:E'. injection E as <- ->.
    destruct (IH _ _ E') as (L & F). split; [cbn [length]; lia|]. intros [|k] x Hx; cbn [nth_error] in *.
    + injection Hx as <-. exists t. rewrite Nat.add_0_r. auto.
    + replace (i + S k) with (S i + k) by lia. now apply F.
Qed.
Lemma dump_path_total ws : forall i, Forall (fun w => exists s, node_str w = Ok s) ws -> exists ts, dump_path i ws = (ts, None).
Proof.
  induction ws as [|w ws IH]; intros i H; cbn [M_Debug.dump_path]; [eauto|]. inversion H as [|? ? (s & Es) F]; subst. rewrite Es. destruct (IH (S i) F) as (ts & ->). eauto.
Qed.

(** a word that can be described *)
Lemma node_str_total w wi : node_info lexinfo w = Ok wi -> exists s, node_str w = Ok s.
Proof. intros E. unfold M_Debug.node_str. destruct (_ || _); [rewrite E|]; cbn [bind]; eauto. Qed.

Lemma mapM_all_ok {A B} (f : A -> res B) l : (forall a, In a l -> exists b, f a = Ok b) -> exists bs, mapM f l = Ok bs.
Proof.
  induction l as [|a l IH]; intros H; cbn [mapM]; [eauto|]. destruct (H a (or_introl eq_refl)) as (b & ->). cbn [bind].
  destruct IH as (bs & ->); [intros; apply H; now right|]. cbn [bind]. eauto.
Qed.
End lines.
