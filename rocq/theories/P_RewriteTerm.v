(** When the loop that joins numbers ends. *)
From Coq Require Import List ZArith Lia Bool Arith.
From Verif Require Import Base Utf8 M_Builder M_InputText M_Lattice M_NumericParser M_PathRewrite
  S_Text S_Lattice S_Numeric S_Rewrite P_InputText P_Accessors P_Tokenizer P_Numeric P_NumericComma P_Rewrite P_RewriteNum.
Import ListNotations.
Open Scope nat_scope.

(** ** Errors of the parser *)
Lemma append_no_comma p c ok p' : p_append p c = (ok, p') -> p_comma p = false -> p_error p <> PComma -> c <> 44%Z ->
  p_comma p' = false /\ p_error p' <> PComma.
Proof.
  unfold p_append. intros E C Er N. destruct (Z.eqb_spec c 46).
  { cbn [p_first p_comma p_tmp p_digits p_hanging p_error p_total p_sub] in E. destruct (p_first p).
    - injection E as <- <-. cbn. split; auto. discriminate.
    - rewrite C in E. cbn [andb] in E. destruct (sn_set_point (p_tmp p)) as [o tm]. destruct o; injection E as <- <-; cbn; split; auto; discriminate. }
  destruct (Z.eqb_spec c 44); [congruence|]. destruct (char_to_num c) as [num|]; [|injection E as <- <-; auto].
  destruct (is_small_unit num).
  { destruct (sn_add (p_sub p) _) as [[o sub] tmp]. destruct o; injection E as <- <-; cbn; auto. }
  destruct (is_large_unit num).
  { destruct (sn_add (p_sub p) (p_tmp p)) as [[o sub] tmp]. destruct (negb o || sn_is_zero sub); [injection E as <- <-; cbn; auto|].
    destruct (sn_add (p_total p) _) as [[o2 tot] sub2]. destruct o2; injection E as <- <-; cbn; auto. }
  injection E as <- <-. cbn. auto.
Qed.
Lemma append_no_point p c ok p' : p_append p c = (ok, p') -> p_error p <> PPoint -> c <> 46%Z -> p_error p' <> PPoint.
Proof.
  unfold p_append. intros E Er N. destruct (Z.eqb_spec c 46); [congruence|].
  destruct (Z.eqb_spec c 44).
  { destruct (negb (check_comma p)); injection E as <- <-; cbn; auto. discriminate. }
  destruct (char_to_num c) as [num|]; [|injection E as <- <-; auto].
  destruct (is_small_unit num).
  { destruct (sn_add (p_sub p) _) as [[o sub] tmp]. destruct o; injection E as <- <-; cbn; auto. }
  destruct (is_large_unit num).
  { destruct (sn_add (p_sub p) (p_tmp p)) as [[o sub] tmp]. destruct (negb o || sn_is_zero sub); [injection E as <- <-; cbn; auto|].
    destruct (sn_add (p_total p) _) as [[o2 tot] sub2]. destruct o2; injection E as <- <-; cbn; auto. }
  injection E as <- <-. cbn. auto.
Qed.
Lemma feed_no_comma s : forall p ok p', p_feed p s = (ok, p') -> p_comma p = false -> p_error p <> PComma -> ~ In 44%Z s ->
  p_error p' <> PComma.
Proof.
  induction s as [|c s IH]; intros p ok p'; cbn [p_feed]; [intros [= <- <-]; auto|].
  destruct (p_append p c) as [o q] eqn:E. intros F C Er N.
  destruct (append_no_comma _ _ _ _ E C Er) as (C' & Er'). { intros ->. apply N. now left. }
  destruct o; [|injection F as <- <-; exact Er']. eapply IH; eauto. intros I. apply N. now right.
Qed.
Lemma feed_no_point s : forall p ok p', p_feed p s = (ok, p') -> p_error p <> PPoint -> ~ In 46%Z s ->
  p_error p' <> PPoint.
Proof.
  induction s as [|c s IH]; intros p ok p'; cbn [p_feed]; [intros [= <- <-]; auto|].
  destruct (p_append p c) as [o q] eqn:E. intros F Er N.
  pose proof (append_no_point _ _ _ _ E Er) as Er'.
  destruct o; [|injection F as <- <-; apply Er'; intros ->; apply N; now left]. eapply IH; eauto.
  - apply Er'. intros ->. apply N. now left.
  - intros I. apply N. now right.
Qed.

Lemma joined_length R c p q : joined R c p q -> length q <= length p.
Proof.
  induction 1 as [|w p p' H IH|first g last w p p' H1 H2 H3 H4 HR H IH]; cbn [length]; try lia.
  rewrite app_length. destruct g; [discriminate|]. cbn [length]. lia.
Qed.

Section term.
Variable lexinfo : Z -> res word_info.
Context {t orig : text} {m2o : list nat} {cats : list (list cat)} {it : input_text}.
Context (B : built t orig m2o cats it).
Notation n := (length (it_bytes it)).
Variable cfg : numeric_cfg.
Notation R := (number_group lexinfo (jn_pos cfg) (jn_normalize cfg)).
Variable P : list wnode.
Hypothesis TP : tiles 0 (map to_step P) n.
Hypothesis IP : Forall (info_ok lexinfo) P.
Notation step := (jn_step lexinfo cfg it).
Notation loop := (jn_loop lexinfo cfg it).
Notation inv := (jinv lexinfo cfg P).

Definition flags (st : jn_state) : nat := (if js_comma st then 1 else 0) + (if js_period st then 1 else 0).
Definition L := length P.
Definition measure (st : jn_state) : nat :=
  (length (js_path st) - start st) * (3 * (L + 1)) + flags st * (L + 1) + (length (js_path st) - js_next st).

(** the state in which the number of [st] was started, with parser [q] *)
Definition restart (st : jn_state) (q : parser) : jn_state :=
  JnState (js_path st) (start st) None (js_comma st) (js_period st) q.

Lemma path_le st : inv st -> length (js_path st) <= L.
Proof. intros I. apply jinv_joined in I. now apply joined_length in I. Qed.

(** A turn of the loop either makes progress or goes back to where the number started
    with nothing changed. *)
Lemma step_progress st st' : inv st -> js_next st < length (js_path st) -> step st = Ok st' ->
  measure st' < measure st \/ exists q, st' = restart st q.
Proof.
  intros I Hlt E. pose proof (path_le st I) as HL. destruct (jn_step_spec lexinfo B cfg P TP IP st I Hlt) as (st2 & E2 & I').
  rewrite E in E2. injection E2 as <-. pose proof (path_le st' I') as HL'.
  assert (Hs : start st <= js_next st). { unfold start. destruct (js_begin st) as [b|] eqn:Eb; [|lia]. apply (ji_begin _ _ _ _ I) in Eb. lia. }
  pose proof (ji_next _ _ _ _ I') as Hn'.
  assert (Hf : forall c p, (if negb c && p then true else c) = c \/ c = false) by (intros [] []; auto).
  (* progress of the start *)
  assert (Prog : forall s', length (js_path s') <= length (js_path st) -> start st < start s' -> start s' <= length (js_path s') ->
     start s' = js_next s' -> measure s' < measure st).
  { intros s' H1 H2 H3 H4. unfold measure. assert (flags s' <= 2) by (unfold flags; destruct (js_comma s'), (js_period s'); lia).
    assert (length (js_path s') - js_next s' <= L) by lia.
    assert (length (js_path s') - start s' + 1 <= length (js_path st) - start st) by lia.
    assert (length (js_path st) - start st = length (js_path s') - start s' + 1 + (length (js_path st) - start st - (length (js_path s') - start s' + 1))) as -> by lia.
    rewrite !Nat.mul_add_distr_r. nia. }
  unfold jn_step in E. apply bind_ok in E as (w & Ew & E). apply bind_ok in E as (cs & Ec & E). apply bind_ok in E as (info & Ei & E).
  destruct (treated_as_digit _ _ _ _).
  - set (bp := match js_begin st with Some b => (b, js_parser st) | None => (js_next st, p_clear (js_parser st)) end) in E.
    assert (HB : fst bp = start st) by (unfold bp, start; destruct (js_begin st); reflexivity).
    destruct bp as [b p]. cbn [fst] in HB. subst b. destruct (p_feed p (wi_norm info)) as [ok p']. destruct ok.
    + injection E as <-. left. unfold measure, flags, start. cbn [js_path js_next js_begin js_comma js_period].
      destruct (js_begin st); lia.
    + destruct (p_error p').
      * injection E as <-. left. apply Prog; unfold start; cbn; try lia. unfold start in Hs. lia.
      * injection E as <-. destruct (js_period st) eqn:Ep; [|right; exists p'; unfold restart; now rewrite Ep].
        left. unfold measure, flags, start. cbn [js_path js_next js_begin js_comma js_period]. rewrite Ep.
        destruct (js_begin st), (js_comma st); lia.
      * injection E as <-. destruct (js_comma st) eqn:Ep; [|right; exists p'; unfold restart; now rewrite Ep].
        left. unfold measure, flags, start. cbn [js_path js_next js_begin js_comma js_period]. rewrite Ep.
        destruct (js_begin st), (js_period st); lia.
      * injection E as <-. left. apply Prog; unfold start; cbn; try lia. unfold start in Hs. lia.
  - left. destruct (js_begin st) as [b|] eqn:Eb.
    + assert (Sb : start st = b) by (unfold start; now rewrite Eb).
      assert (Hbn : b < js_next st) by (apply (ji_begin _ _ _ _ I) in Eb; lia).
      destruct I as [(P0 & A & T & EP & Epath & J & LA) Hn Hb]. destruct (Hb b Eb) as (_ & HF).
      destruct (p_done (js_parser st)) as [ok p'] eqn:Ed.
      assert (W : wf (p_total p')). { destruct HF as (infos & _ & HF). eapply feed_done_wf; eauto. }
      destruct ok.
      * destruct (jinv_concat lexinfo cfg P (js_path st) P0 A T b (js_next st) p' (b + 2) true true p')
          as (path' & Ej & _ & Lj & _); auto; try lia.
        { destruct HF as (infos & EI & HF). exists infos. split; auto. left. exists (js_parser st). auto. }
        rewrite Ej in E. cbn [bind] in E. injection E as <-. cbn in Hn'. apply Prog; rewrite ?Sb; unfold start; cbn; lia.
      * apply bind_ok in E as (prev & Epv & E). apply get_ok in Epv. apply bind_ok in E as (pinfo & Epi & E).
        destruct (trailing p' (wi_norm pinfo)) eqn:Tr.
        -- destruct (trailing_spec lexinfo (js_path st) b (js_next st) _ _ _ _ ltac:(lia) ltac:(lia) HF Ed Epv Epi Tr) as (Hb1 & JU).
           destruct (jinv_concat lexinfo cfg P (js_path st) P0 A T b (js_next st - 1) p' (b + 3) true true p')
             as (path' & Ej & _ & Lj & _); auto; try lia.
           rewrite Ej in E. cbn [bind] in E. injection E as <-. cbn in Hn'. apply Prog; rewrite ?Sb; unfold start; cbn; lia.
        -- injection E as <-. apply Prog; rewrite ?Sb; unfold start; cbn; lia.
    + assert (Sb : start st = js_next st) by (unfold start; now rewrite Eb).
      injection E as <-. apply Prog; rewrite ?Sb; unfold start; cbn; lia.
Qed.

(** ** Going round in circles *)
Inductive turns : nat -> jn_state -> jn_state -> Prop :=
| turns_0 a : turns 0 a a
| turns_S k a b c : js_next a < length (js_path a) -> step a = Ok b -> turns k b c -> turns (S k) a c.
Lemma turns_snoc k a b c : turns k a b -> js_next b < length (js_path b) -> step b = Ok c -> turns (S k) a c.
Proof. induction 1; intros; econstructor; eauto. constructor. Qed.
Lemma turns_more k a b f : turns k a b -> loop (k + f) a = loop f b.
Proof.
  induction 1 as [|k a b c H E T IH]; [reflexivity|]. cbn [Nat.add jn_loop]. destruct (Nat.ltb_spec (js_next a) (length (js_path a))); [|lia].
  rewrite E. exact IH.
Qed.
Lemma turns_short k a b : turns k a b -> forall f, f <= k -> loop f a = Err EFuel.
Proof.
  induction 1 as [|k a b c H E T IH]; intros f Hf.
  - replace f with 0 by lia. reflexivity.
  - destruct f as [|f]; [reflexivity|]. cbn [jn_loop]. destruct (Nat.ltb_spec (js_next a) (length (js_path a))); [|lia].
    rewrite E. apply IH. lia.
Qed.

(** The turns since the number was started do not depend on the parser at the start. *)
Definition started (st : jn_state) : Prop :=
  match js_begin st with
  | None => True
  | Some b => b < length (js_path st) /\
      exists k st1, (forall q, step (restart st q) = Ok st1) /\ turns k st1 st
  end.

Lemma started_step st st' : inv st -> js_next st < length (js_path st) -> started st -> step st = Ok st' -> started st'.
Proof.
  intros I Hlt S E. unfold started in *. destruct (js_begin st') as [b'|] eqn:Eb'; [|exact Logic.I].
  pose proof E as E0. unfold jn_step in E. apply bind_ok in E as (w & Ew & E). apply bind_ok in E as (cs & Ec & E). apply bind_ok in E as (info & Ei & E).
  destruct (treated_as_digit _ _ _ _) eqn:Tr.
  - destruct (js_begin st) as [b|] eqn:Eb.
    + destruct (p_feed (js_parser st) (wi_norm info)) as [ok p'] eqn:Ef. destruct ok; [|destruct (p_error p'); injection E as <-; discriminate].
      injection E as <-. cbn in Eb'. injection Eb' as <-. destruct S as (Hb & k & st1 & S1 & S2). cbn [js_path].
      split; [exact Hb|]. exists (Datatypes.S k), st1. split.
      * intros q. rewrite <- (S1 q). f_equal. unfold restart, start. cbn. now rewrite Eb.
      * eapply turns_snoc; eauto.
    + destruct (p_feed (p_clear (js_parser st)) (wi_norm info)) as [ok p'] eqn:Ef. destruct ok; [|destruct (p_error p'); injection E as <-; discriminate].
      injection E as <-. cbn in Eb'. injection Eb' as <-. cbn [js_path]. split; [exact Hlt|].
      eexists 0, _. split; [|constructor]. intros q. unfold restart, start. cbn [js_path js_next js_begin js_comma js_period].
      unfold jn_step. cbn [js_path js_next js_begin js_comma js_period js_parser]. rewrite Ew. cbn [bind]. rewrite Ec. cbn [bind].
      rewrite Ei. cbn [bind]. rewrite Tr. rewrite p_clear_new in *. rewrite Ef. reflexivity.
  - exfalso. destruct (js_begin st) as [b|].
    + destruct (p_done (js_parser st)) as [[|] p'].
      * apply bind_ok in E as (path' & _ & [= <-]). discriminate.
      * apply bind_ok in E as (prev & _ & E). apply bind_ok in E as (pinfo & _ & E). destruct (trailing _ _).
        -- apply bind_ok in E as (path' & _ & [= <-]). discriminate.
        -- injection E as <-. discriminate.
    + injection E as <-. discriminate.
Qed.

(** Back at the start with nothing changed: the loop never ends. *)
Lemma circle st q : js_next st < length (js_path st) -> started st -> step st = Ok (restart st q) ->
  forall f, loop f st = Err EFuel.
Proof.
  intros Hlt S E. assert (C : exists k, forall q', turns (Datatypes.S k) (restart st q') (restart st q)).
  { unfold started in S. destruct (js_begin st) as [b|] eqn:Eb.
    - destruct S as (Hb & k & st1 & S1 & S2). exists (Datatypes.S k). intros q'. econstructor; [|apply S1|].
      + unfold restart, start. cbn. now rewrite Eb.
      + eapply turns_snoc; eauto.
    - exists 0. intros q'. econstructor; [| |constructor].
      + unfold restart, start. cbn. now rewrite Eb.
      + pose proof E as E0. revert E. unfold jn_step, restart, start. rewrite Eb. cbn [js_path js_next js_begin js_comma js_period js_parser].
        destruct (get (js_path st) (js_next st)) as [w|]; cbn [bind]; [|discriminate].
        destruct (node_cats it w) as [cs|]; cbn [bind]; [|discriminate].
        destruct (node_info lexinfo w) as [info|]; cbn [bind]; [|discriminate].
        destruct (treated_as_digit _ _ _ _).
        * rewrite !p_clear_new. auto.
        * intros [= E1 E2]. lia. }
  destruct C as (k & C).
  assert (D : forall f q', loop f (restart st q') = Err EFuel).
  { intros f. induction f as [f IH] using lt_wf_ind. intros q'. destruct (le_lt_dec f (Datatypes.S k)) as [Hf|Hf].
    - eapply turns_short; [apply (C q')|exact Hf].
    - replace f with (Datatypes.S k + (f - Datatypes.S k)) by lia. rewrite (turns_more _ _ _ _ (C q')). apply IH. lia. }
  intros [|f]; [reflexivity|]. cbn [jn_loop]. destruct (Nat.ltb_spec (js_next st) (length (js_path st))); [|lia].
  rewrite E. cbn [bind]. apply D.
Qed.

Lemma loop_or_circle m : forall st, inv st -> started st -> measure st < m ->
  (exists q, loop m st = Ok q) \/ (forall f, loop f st = Err EFuel).
Proof.
  induction m as [|m IH]; intros st I S Hm; [lia|]. cbn [jn_loop].
  destruct (Nat.ltb_spec (js_next st) (length (js_path st))) as [Hlt|Hge].
  - destruct (jn_step_spec lexinfo B cfg P TP IP st I Hlt) as (st' & E & I'). rewrite E. cbn [bind].
    destruct (step_progress st st' I Hlt E) as [Hd|(q & ->)].
    + destruct (IH st' I') as [Hok|Hc]; [exact (started_step st st' I Hlt S E)|lia|now left|]. right.
      intros [|f]; [reflexivity|]. cbn [jn_loop]. destruct (Nat.ltb_spec (js_next st) (length (js_path st))); [|lia]. rewrite E. apply Hc.
    + right. intros f. now apply (circle st q Hlt S E).
  - left. destruct (jn_finish_spec lexinfo cfg P IP st I Hge) as (q & E & _). eauto.
Qed.

Lemma fuel_enough : join_numeric lexinfo cfg it P = Err EFuel -> forall f, loop f (jn_init P) = Err EFuel.
Proof.
  intros E. unfold join_numeric in E.
  destruct (loop_or_circle (jn_fuel (length P)) (jn_init P)) as [(q & H)|H]; auto.
  - apply jinv_init.
  - exact Logic.I.
  - unfold measure, flags, start, jn_fuel, jn_init, L. cbn [js_path js_next js_begin js_comma js_period]. nia.
  - congruence.
Qed.

(** ** Numbers whose parts contain no separator *)
Hypothesis plain : forall w info cs, In w P -> node_info lexinfo w = Ok info ->
  get_cats_range it (w_begin w) (w_end w) = Ok cs -> In NUMERIC cs \/ In KANJINUMERIC cs ->
  ~ In 44%Z (wi_norm info) /\ ~ In 46%Z (wi_norm info).

Definition unseparated (st : jn_state) : Prop :=
  forall b infos, js_begin st = Some b -> mapM (node_info lexinfo) (slice (js_path st) b (js_next st)) = Ok infos ->
    (js_comma st = false -> ~ In 44%Z (concat (map wi_norm infos))) /\
    (js_period st = false -> ~ In 46%Z (concat (map wi_norm infos))).

Lemma treated_plain st w info cs : inv st -> In w P -> node_info lexinfo w = Ok info -> node_cats it w = Ok cs ->
  treated_as_digit (js_comma st) (js_period st) cs (wi_norm info) = true ->
  (js_comma st = false -> ~ In 44%Z (wi_norm info)) /\ (js_period st = false -> ~ In 46%Z (wi_norm info)).
Proof.
  intros I Iw Ei Ec T. unfold treated_as_digit in T. repeat (apply orb_prop in T as [T|T]).
  - apply cat_mem_In in T. destruct (plain w info cs Iw Ei Ec (or_introl T)). auto.
  - apply cat_mem_In in T. destruct (plain w info cs Iw Ei Ec (or_intror T)). auto.
  - apply andb_prop in T as (T1 & T2). apply (list_eqb_spec Z.eqb Z.eqb_eq) in T2. rewrite T1, T2. unfold point_text.
    split; [|discriminate]. intros _ [X|[]]. discriminate.
  - apply andb_prop in T as (T1 & T2). apply (list_eqb_spec Z.eqb Z.eqb_eq) in T2. rewrite T1, T2. unfold comma_text.
    split; [discriminate|]. intros _ [X|[]]. discriminate.
Qed.

Lemma step_plain st st' : inv st -> unseparated st -> js_next st < length (js_path st) -> step st = Ok st' ->
  unseparated st' /\ measure st' < measure st.
Proof.
  intros I U Hlt E. pose proof E as E0.
  assert (Hs : start st <= js_next st). { unfold start. destruct (js_begin st) as [b|] eqn:Eb; [|lia]. apply (ji_begin _ _ _ _ I) in Eb. lia. }
  unfold jn_step in E. apply bind_ok in E as (w & Ew & E). apply bind_ok in E as (cs & Ec & E). apply bind_ok in E as (info & Ei & E).
  apply get_ok in Ew. pose proof (jinv_node _ _ _ _ _ _ I Hs Ew) as Iw.
  destruct (treated_as_digit _ _ _ _) eqn:Tr.
  - destruct (treated_plain st w info cs I Iw Ei Ec Tr) as (NC & NP).
    set (bp := match js_begin st with Some b => (b, js_parser st) | None => (js_next st, p_clear (js_parser st)) end) in E.
    assert (HB : fst bp = start st) by (unfold bp, start; destruct (js_begin st); reflexivity).
    assert (HF : exists infos, mapM (node_info lexinfo) (slice (js_path st) (fst bp) (js_next st)) = Ok infos
              /\ p_feed p_new (concat (map wi_norm infos)) = (true, snd bp)
              /\ (js_comma st = false -> ~ In 44%Z (concat (map wi_norm infos)))
              /\ (js_period st = false -> ~ In 46%Z (concat (map wi_norm infos)))).
    { unfold bp. destruct (js_begin st) as [b|] eqn:Eb; cbn [fst snd].
      - destruct (ji_begin _ _ _ _ I b Eb) as (_ & infos & EI & HF). exists infos. destruct (U b infos Eb EI). auto.
      - exists []. rewrite slice_nil by lia. cbn. rewrite p_clear_new. auto. }
    destruct bp as [b p]. cbn [fst snd] in *. subst b. destruct HF as (infos & EI & HF & HC & HP).
    destruct (p_feed p (wi_norm info)) as [ok p'] eqn:Ef.
    assert (Fall : p_feed p_new (concat (map wi_norm infos) ++ wi_norm info) = (ok, p')).
    { rewrite (feed_app_ok _ _ _ _ HF). exact Ef. }
    assert (NCa : js_comma st = false -> p_error p' <> PComma).
    { intros H. eapply feed_no_comma; [exact Fall|reflexivity|discriminate|]. intros X. apply in_app_or in X as [X|X]; [now apply HC|now apply NC]. }
    assert (NPa : js_period st = false -> p_error p' <> PPoint).
    { intros H. eapply feed_no_point; [exact Fall|discriminate|]. intros X. apply in_app_or in X as [X|X]; [now apply HP|now apply NP]. }
    destruct ok.
    + injection E as <-. split.
      * intros b infos' [= <-]. cbn [js_path js_next js_comma js_period].
        rewrite (slice_snoc _ _ _ w) by auto. rewrite mapM_app, EI. cbn [bind mapM]. rewrite Ei. cbn [bind]. intros [= <-].
        rewrite map_app, concat_app. cbn [map concat]. rewrite app_nil_r. split; intros H X; apply in_app_or in X as [X|X]; tauto.
      * destruct (step_progress _ _ I Hlt E0) as [H|(q & H)]; [exact H|discriminate].
    + destruct (p_error p') eqn:Er; injection E as <-; (split; [intros b infos' X; discriminate X|]).
      * destruct (step_progress _ _ I Hlt E0) as [H|(q & [= H1 H2])]; [exact H|lia].
      * destruct (step_progress _ _ I Hlt E0) as [H|(q & [= H1 H2])]; [exact H|]. exfalso. now apply NPa.
      * destruct (step_progress _ _ I Hlt E0) as [H|(q & [= H1 H2])]; [exact H|]. exfalso. now apply NCa.
      * destruct (step_progress _ _ I Hlt E0) as [H|(q & [= H1 H2])]; [exact H|lia].
  - assert (N : js_begin st' = None).
    { destruct (js_begin st) as [b|].
      + destruct (p_done (js_parser st)) as [[|] p'].
        * apply bind_ok in E as (path' & _ & [= <-]). reflexivity.
        * apply bind_ok in E as (prev & _ & E). apply bind_ok in E as (pinfo & _ & E). destruct (trailing _ _).
          -- apply bind_ok in E as (path' & _ & [= <-]). reflexivity.
          -- injection E as <-. reflexivity.
      + injection E as <-. reflexivity. }
    split; [intros b infos X; congruence|].
    destruct (step_progress _ _ I Hlt E0) as [H|(q & H)]; [exact H|]. exfalso. subst st'.
    assert (S' : forall k, Ok k = Ok (restart st q) -> js_next k = start st) by (intros k [= ->]; reflexivity).
    destruct (js_begin st) as [b|] eqn:Eb.
    + assert (Sb : start st = b) by (unfold start; now rewrite Eb).
      destruct (ji_begin _ _ _ _ I b Eb) as (Hbn & _).
      destruct (p_done (js_parser st)) as [[|] p'].
      * apply bind_ok in E as (path' & _ & E). apply S' in E. cbn in E. lia.
      * apply bind_ok in E as (prev & _ & E). apply bind_ok in E as (pinfo & _ & E). destruct (trailing _ _).
        -- apply bind_ok in E as (path' & _ & E). apply S' in E. cbn in E. lia.
        -- apply S' in E. cbn in E. lia.
    + apply S' in E. cbn in E. unfold start in E. rewrite Eb in E. lia.
Qed.

Lemma loop_ends m : forall st, inv st -> unseparated st -> measure st < m -> exists q, loop m st = Ok q.
Proof.
  induction m as [|m IH]; intros st I U Hm; [lia|]. cbn [jn_loop].
  destruct (Nat.ltb_spec (js_next st) (length (js_path st))) as [Hlt|Hge].
  - destruct (jn_step_spec lexinfo B cfg P TP IP st I Hlt) as (st' & E & I'). rewrite E. cbn [bind].
    destruct (step_plain st st' I U Hlt E) as (U' & Hd). apply IH; auto. lia.
  - destruct (jn_finish_spec lexinfo cfg P IP st I Hge) as (q & E & _). eauto.
Qed.

Lemma join_numeric_ends : exists q, join_numeric lexinfo cfg it P = Ok q.
Proof.
  apply loop_ends; [apply jinv_init|intros b infos X; discriminate X|].
  unfold measure, flags, start, jn_fuel, jn_init, L. cbn [js_path js_next js_begin js_comma js_period]. nia.
Qed.
End term.
