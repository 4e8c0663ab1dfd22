(** Macro calls and textual expansion. *)
From Coq Require Import Lia.
From Verif Require Import Py PyFacts Utils Tokenizer State Assembler SpecSubst SubstFacts SpecExec ExecFacts
  SpecSim SimFacts SpecMacro PropsExec.
Local Open Scope Z_scope.

Scheme expands_mut := Minimality for expands Sort Prop
with expands_body_mut := Minimality for expands_body Sort Prop.
Combined Scheme expands_both from expands_mut, expands_body_mut.

(** *** Substitution depends on the values only *)
Lemma substituted_ext : forall d1 d2 t u, (forall k, value_of d1 k = value_of d2 k) ->
  substituted d1 t u -> substituted d2 t u.
Proof.
  intros d1 d2 t u E H. destruct H as [v H|ks H K].
  - apply subst_whole. rewrite <- E. auto.
  - replace (flat_map (chunk_subst d1) ks) with (flat_map (chunk_subst d2) ks).
    + apply subst_parts; auto. rewrite <- E. auto.
    + clear - E. induction ks as [|k ks IH]; auto. cbn [flat_map]. f_equal; auto.
      destruct k as [w|ch]; cbn; auto. rewrite E. reflexivity.
Qed.
Lemma subst_map : forall d t u, Forall2 (substituted d) t u -> map (subst_token d) t = u.
Proof.
  intros d t u H. induction H; auto. cbn [map]. f_equal; auto.
  eapply substituted_unique; eauto. apply subst_token_substituted.
Qed.

Lemma value_app : forall d1 d2 k, value_of (d1 ++ d2) k = match value_of d1 k with Some v => Some v | None => value_of d2 k end.
Proof.
  induction d1 as [|[a v] d1 IH]; intros d2 k; cbn [app value_of]; auto.
  destruct (list_eq_dec ascii_dec k a); auto.
Qed.
Lemma value_dset : forall d k v k', value_of (dset str_eqb d k v) k' =
  if list_eq_dec ascii_dec k' k then Some v else value_of d k'.
Proof.
  induction d as [|[a x] d IH]; intros k v k'; cbn [dset value_of]; auto.
  destruct (str_eqb k a) eqn:E.
  - apply str_eqb_spec in E. subst a. cbn [value_of]. destruct (list_eq_dec ascii_dec k' k); auto.
  - cbn [value_of]. destruct (list_eq_dec ascii_dec k' a) as [->|N]; [|apply IH].
    destruct (list_eq_dec ascii_dec a k) as [->|]; auto. rewrite (proj2 (str_eqb_spec k k)) in E by auto. discriminate.
Qed.
Lemma macro_dict_spec : forall params args d0, (length params <= length args)%nat ->
  exists d, macro_dict params args d0 = Ok d /\
    forall k, value_of d k = value_of (bindings params args ++ d0) k.
Proof.
  induction params as [|x params IH]; intros args d0 L; cbn [macro_dict].
  - exists d0. split; [destruct args; reflexivity|]. reflexivity.
  - destruct args as [|a args]; cbn [length] in L; [lia|].
    destruct (IH args (dset str_eqb d0 x a)) as (d & E & V); [lia|]. exists d. split; auto. intros k.
    rewrite V. unfold bindings. cbn [combine rev]. rewrite !value_app, value_dset. cbn [value_of].
    destruct (value_of (rev (combine params args)) k); auto.
    destruct (list_eq_dec ascii_dec k x); auto.
Qed.
Lemma macro_subst : forall params args t u, (length params <= length args)%nat ->
  Forall2 (substituted (bindings params args)) t u ->
  exists d, macro_dict params args [] = Ok d /\ substitute_with_dict t d 0 = u.
Proof.
  intros params args t u L H. destruct (macro_dict_spec params args [] L) as (d & E & V).
  exists d. split; auto. unfold substitute_with_dict. cbn [firstn skipn app]. apply subst_map.
  clear E. induction H; constructor; auto. eapply substituted_ext; [|eauto].
  intros k. rewrite V, app_nil_r. reflexivity.
Qed.

(** *** The macro table during a call *)
Definition stored (pl : place) (t : list str) (ms : list (str * macro)) : list (str * macro) :=
  match pl with
  | Fresh => ms
  | InMacro key i =>
      match dget str_eqb ms key with
      | Some m =>
          match nth_error (m_body m) i with
          | Some x => dset str_eqb ms key
              (MkMacro (m_args m) (replace_nth i (Stmt (s_kind x) t (s_line x)) (m_body m)))
          | None => ms
          end
      | None => ms
      end
  end.
Lemma set_macros_twice : forall s a b, set_macros (set_macros s a) b = set_macros s b.
Proof. reflexivity. Qed.
Lemma set_macros_self : forall s, set_macros s (macros s) = s.
Proof. destruct s; reflexivity. Qed.
Lemma store_eq : forall pl t s ms, store_tokens pl t (set_macros s ms) = (set_macros s (stored pl t ms), Ok tt).
Proof.
  intros [|key i] t s ms; cbn [store_tokens stored]; [reflexivity|]. unfold modify. cbn [macros set_macros].
  destruct (dget str_eqb ms key) as [m|]; [|reflexivity].
  destruct (nth_error (m_body m) i); reflexivity.
Qed.

Lemma dset_same : forall V (d : list (str * V)) k v, dget str_eqb d k = Some v -> dset str_eqb d k v = d.
Proof.
  induction d as [|[a x] d IH]; intros k v H; cbn [dget dset] in *; [discriminate|].
  destruct (str_eqb k a); [injection H as ->; reflexivity|]. f_equal. auto.
Qed.
Lemma dget_other : forall V (d : list (str * V)) k v k', k <> k' -> dget str_eqb (dset str_eqb d k v) k' = dget str_eqb d k'.
Proof.
  induction d as [|[a x] d IH]; intros k v k' N; cbn [dset dget].
  - destruct (str_eqb k' k) eqn:E; auto. apply str_eqb_spec in E. congruence.
  - destruct (str_eqb k a) eqn:E; cbn [dget].
    + apply str_eqb_spec in E. subst. destruct (str_eqb k' a) eqn:E'; auto. apply str_eqb_spec in E'. congruence.
    + destruct (str_eqb k' a); auto.
Qed.
Lemma stored_other : forall pl t ms k, (forall k' i, pl = InMacro k' i -> k' <> k) ->
  dget str_eqb (stored pl t ms) k = dget str_eqb ms k.
Proof.
  intros [|key i] t ms k N; cbn [stored]; auto.
  destruct (dget str_eqb ms key) as [m|]; auto. destruct (nth_error (m_body m) i); auto.
  apply dget_other. eapply N. reflexivity.
Qed.

Lemma nth_mid : forall A (pre : list A) x post, nth_error (pre ++ x :: post) (length pre) = Some x.
Proof. induction pre; cbn; auto. Qed.
Lemma replace_mid : forall A (pre : list A) x y post, replace_nth (length pre) y (pre ++ x :: post) = pre ++ y :: post.
Proof. induction pre; intros; cbn [app length replace_nth]; auto. rewrite IHpre. reflexivity. Qed.

Lemma stored_here : forall ms key args pre x post t, dget str_eqb ms key = Some (MkMacro args (pre ++ x :: post)) ->
  stored (InMacro key (length pre)) t ms =
    dset str_eqb ms key (MkMacro args (pre ++ Stmt (s_kind x) t (s_line x) :: post)).
Proof. intros ms key args pre x post t H. cbn [stored]. rewrite H. cbn [m_body m_args]. rewrite nth_mid, replace_mid. reflexivity. Qed.

(** Whatever was stored meanwhile, storing the original tokens restores the table. *)
Lemma stored_restore : forall ms key args pre x post t1 t2,
  dget str_eqb ms key = Some (MkMacro args (pre ++ x :: post)) ->
  stored (InMacro key (length pre)) (s_tokens x)
    (stored (InMacro key (length pre)) t2 (stored (InMacro key (length pre)) t1 ms)) = ms.
Proof.
  intros ms key args pre x post t1 t2 H.
  rewrite (stored_here ms key args pre x post t1 H).
  set (m1 := dset str_eqb ms key _).
  assert (G1 : dget str_eqb m1 key = Some (MkMacro args (pre ++ Stmt (s_kind x) t1 (s_line x) :: post)))
    by apply dget_dset_same.
  rewrite (stored_here m1 key args pre _ post t2 G1). cbn [s_kind s_line].
  set (m2 := dset str_eqb m1 key _).
  assert (G2 : dget str_eqb m2 key = Some (MkMacro args (pre ++ Stmt (s_kind x) t2 (s_line x) :: post)))
    by apply dget_dset_same.
  rewrite (stored_here m2 key args pre _ post _ G2). cbn [s_kind s_line]. unfold m2, m1. rewrite !dset_dset.
  apply dset_same. rewrite H. destruct x; reflexivity.
Qed.

Section Call.
  Context (c : cfg) (IG : macros_ignored c).

  Lemma opcode_macros : forall key t s ms,
    opcode_assemble c key t (set_macros s ms) =
      (set_macros (fst (opcode_assemble c key t s)) ms, snd (opcode_assemble c key t s)) /\
    defines (fst (opcode_assemble c key t s)) = defines s /\
    macro_recording (fst (opcode_assemble c key t s)) = macro_recording s.
  Proof.
    intros key t s ms. unfold opcode_assemble.
    destruct (dget str_eqb (c_instructions c) key) as [[b|f]|] eqn:E.
    - destruct (negb (len_in t [1%nat])); repeat split.
    - destruct (IG _ _ t s E) as (F & D & R). unfold bind, call_handler. rewrite F.
      destruct (f t s) as [s1 [[b|]|[e|e]]]; cbn [fst snd] in *; repeat split; auto.
    - repeat split.
  Qed.
  Lemma run_macros : forall l s ms,
    run_opcodes c l (set_macros s ms) =
      (set_macros (fst (run_opcodes c l s)) ms, snd (run_opcodes c l s)) /\
    defines (fst (run_opcodes c l s)) = defines s /\
    macro_recording (fst (run_opcodes c l s)) = macro_recording s.
  Proof.
    unfold run_opcodes. induction l as [|t l IH]; intros s ms; cbn [iter]; [repeat split|].
    unfold bind. cbv beta.
    match goal with |- context [opcode_assemble c ?k t (set_macros s ms)] => set (key := k) end.
    destruct (opcode_macros key t s ms) as (E & D & R). rewrite E.
    destruct (opcode_assemble c key t s) as [s1 [[]|e]]; cbn [fst snd] in *; [|repeat split; auto].
    destruct (IH s1 ms) as (E' & D' & R'). rewrite E', D', R'. repeat split; auto.
  Qed.
  Lemma run_app : forall l1 l2 s, run_opcodes c (l1 ++ l2) s =
    match run_opcodes c l1 s with (s1, Ok _) => run_opcodes c l2 s1 | (s1, Err e) => (s1, Err e) end.
  Proof.
    unfold run_opcodes. induction l1 as [|t l1 IH]; intros l2 s; cbn [app iter]; [reflexivity|].
    unfold bind. destruct (opcode_assemble _ _ t s) as [s1 [[]|e]]; [apply IH|reflexivity].
  Qed.

  Context (ms : list (str * macro)) (ds : list (str * str)).

  Definition outcome (r : st * res unit) (s : st) (out : list (list str)) (ms' : list (str * macro)) : Prop :=
    match run_opcodes c out s with
    | (s', Ok _) => r = (set_macros s' ms', Ok tt)
    | (s', Err e) => exists ms'', r = (set_macros s' ms'', Err e)
    end.

  Definition table_ok (busy : list str) (ms' : list (str * macro)) : Prop :=
    (forall k, ~ In k busy -> dget str_eqb ms' k = dget str_eqb ms k) /\
    (forall k, dget str_eqb ms k = None -> dget str_eqb ms' k = None).

  Lemma table_stored : forall busy ms' key i t, table_ok busy ms' -> In key busy ->
    table_ok busy (stored (InMacro key i) t ms').
  Proof.
    intros busy ms' key i t [A B] I. split.
    - intros k N. rewrite stored_other; auto. intros k' i' E. injection E as <- <-. intros ->. auto.
    - intros k N. specialize (B k N). destruct (list_eq_dec ascii_dec key k) as [->|NE].
      + cbn [stored]. rewrite B. auto.
      + rewrite stored_other; auto. intros k' i' E. injection E as <- <-. auto.
  Qed.
  Lemma table_more : forall busy k ms', table_ok busy ms' -> table_ok (k :: busy) ms'.
  Proof. intros busy k ms' [A B]. split; auto. intros k' N. apply A. intros I. apply N. right. auto. Qed.

  (** One step of instruction_assemble. *)
  Lemma instruction_step : forall fuel l pl t t0 ops s ms', map (subst_token ds) t = t0 :: ops ->
    defines s = ds -> macro_recording s = None ->
    instruction_assemble c fuel l pl t (set_macros s ms') =
      match dget str_eqb ms' (op_key c t0) with
      | Some m => match fuel with
                  | O => praise RecursionError
                  | S f => macro_loop (instruction_assemble c f l) (op_key c t0) (m_args m) ops (length (m_body m)) 0
                  end (set_macros s (stored pl (t0 :: ops) ms'))
      | None => opcode_assemble c (op_key c t0) (t0 :: ops) (set_macros s (stored pl (t0 :: ops) ms'))
      end.
  Proof.
    intros fuel l pl t t0 ops s ms' E DS RC.
    assert (SB : substitute_with_dict t (defines (set_macros s ms')) 0 = t0 :: ops).
    { unfold substitute_with_dict. cbn [firstn skipn app set_macros defines]. rewrite DS. exact E. }
    destruct fuel; cbn [instruction_assemble]; unfold bind at 1, get;
      replace (macro_recording (set_macros s ms')) with (@None str) by (rewrite <- RC; reflexivity); cbv zeta;
      rewrite SB; unfold bind at 1; rewrite store_eq; unfold bind at 1; cbn [tok_at nth_error]; unfold ret;
      cbv beta iota; fold (op_key c t0);
      change (macros (set_macros s ms')) with ms'; destruct (dget str_eqb ms' (op_key c t0)); reflexivity.
  Qed.

  Lemma expansion_core :
    (forall busy t out, expands c ms ds busy t out -> exists n, forall fuel l pl s ms', (n <= fuel)%nat ->
       table_ok busy ms' -> (forall k i, pl = InMacro k i -> In k busy) ->
       defines s = ds -> macro_recording s = None ->
       outcome (instruction_assemble c fuel l pl t (set_macros s ms')) s out
         (stored pl (map (subst_token ds) t) ms')) /\
    (forall busy b body out, expands_body c ms ds busy b body out ->
       exists n, forall fuel l key params args margs pre s ms', (n <= fuel)%nat ->
       b = bindings params args -> (length params <= length args)%nat ->
       In key busy -> table_ok busy ms' ->
       dget str_eqb ms' key = Some (MkMacro margs (pre ++ body)) ->
       defines s = ds -> macro_recording s = None ->
       outcome (macro_loop (instruction_assemble c fuel l) key params args (length body) (length pre) (set_macros s ms'))
         s out ms').
  Proof.
    apply expands_both.
    - (* opcode *)
      intros busy t t0 ops SB N. exists 0%nat. intros fuel l pl s ms' _ [A B] PL DS RC.
      pose proof (subst_map _ _ _ SB) as E. rewrite (instruction_step _ _ _ _ _ _ _ _ E DS RC), E, (B _ N).
      set (sm := stored pl (t0 :: ops) ms').
      destruct (opcode_macros (op_key c t0) (t0 :: ops) s sm) as (X & _). rewrite X.
      unfold outcome, run_opcodes. cbn [iter]. unfold bind.
      destruct (opcode_assemble c (op_key c t0) (t0 :: ops) s) as [s1 [[]|e]]; cbn [fst snd]; [reflexivity|eauto].
    - (* macro *)
      intros busy t t0 args m out SB G NB L _ [n IH]. exists (S n). intros fuel l pl s ms' F [A B] PL DS RC.
      destruct fuel as [|fuel]; [lia|].
      pose proof (subst_map _ _ _ SB) as E. rewrite (instruction_step _ _ _ _ _ _ _ _ E DS RC), E, (A _ NB), G.
      set (sm := stored pl (t0 :: args) ms').
      assert (K : forall k i, pl = InMacro k i -> k <> op_key c t0).
      { intros k i P ->. apply NB. eapply PL; eauto. }
      assert (TM : table_ok busy sm).
      { unfold sm. destruct pl as [|k i]; [split; auto|]. apply table_stored; [split; auto|]. eapply PL; eauto. }
      apply (IH fuel l (op_key c t0) (m_args m) args (m_args m) [] s sm); auto; try lia.
      + left. auto.
      + apply table_more. auto.
      + unfold sm. rewrite stored_other by auto. rewrite (A _ NB), G. destruct m; reflexivity.
    - (* end of body *)
      intros busy b. exists 0%nat. intros fuel l key params args margs pre s ms' _ _ _ _ _ _ _ _. reflexivity.
    - (* instruction of the body *)
      intros busy b x body t out outs SB _ [n1 IH1] _ [n2 IH2]. exists (Nat.max n1 n2).
      intros fuel l key params args margs pre s ms' F -> L I T G DS RC.
      destruct (macro_subst _ _ _ _ L SB) as (d & MD & SD).
      cbn [length macro_loop]. unfold bind at 1, get. change (macros (set_macros s ms')) with ms'. rewrite G.
      cbn [m_body]. rewrite nth_mid. cbv zeta. unfold bind at 1, lift. rewrite MD, SD.
      unfold bind at 1. rewrite store_eq. set (m1 := stored (InMacro key (length pre)) t ms').
      assert (T1 : table_ok busy m1) by (apply table_stored; auto).
      assert (O1 : outcome (instruction_assemble c fuel l (InMacro key (length pre)) t (set_macros s m1)) s out
         (stored (InMacro key (length pre)) (map (subst_token ds) t) m1)).
      { apply IH1; auto; try lia. intros k i E. injection E as <- <-. auto. }
      unfold outcome in O1 |- *. rewrite run_app.
      destruct (run_macros out s []) as (_ & RD & RR).
      destruct (run_opcodes c out s) as [s1 [[]|e]] eqn:R1; cbn [fst] in RD, RR.
      2:{ destruct O1 as [m2 O1]. exists m2. unfold bind at 1. rewrite O1. reflexivity. }
      replace (S (length pre)) with (length (pre ++ [x])) by (rewrite app_length; cbn; lia).
      match goal with |- context [bind ?a ?b (set_macros s m1)] =>
        assert (EQ : bind a b (set_macros s m1) = macro_loop (instruction_assemble c fuel l) key params args
          (length body) (length (pre ++ [x])) (set_macros s1 ms')) end.
      { unfold bind at 1. rewrite O1. unfold bind at 1. rewrite store_eq.
        unfold m1. rewrite (stored_restore ms' key margs pre x body) by auto. reflexivity. }
      rewrite EQ.
      apply (IH2 fuel l key params args margs (pre ++ [x]) s1 ms'); auto; try lia; try congruence.
      rewrite <- app_assoc. exact G.
  Qed.
End Call.
