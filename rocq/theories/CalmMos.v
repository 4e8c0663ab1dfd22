(** The 6502: a label more changes nothing in a program that links. *)
From Coq Require Import Lia.
From Verif Require Import Py PyFacts Utils Tokenizer State Assembler SpecUtils SpecExec SpecLink UtilsFacts Events ExecFacts
  SpecCpu SpecPlace PlaceFacts Mos6502 FitMos Platform CartFacts SpecCalm CalmFacts CalmCpu.
Local Open Scope Z_scope.

(** A reference to one of the labels X waits to be resolved. *)
Definition waits (X : list (str * label)) (s : st) : Prop :=
  exists a d, In (a, d) (labels_addresses s) /\ dget str_eqb X (fst (fst (get_math_formula (ld_label d)))) <> None.
Definition bad (X : list (str * label)) (s : st) : Prop := clash X (labels s) \/ waits X s.
Definition doom (X : list (str * label)) (s : st) : Prop := tidy s /\ bad X s.

Lemma extends_keeps : forall l1 l2 : list (str * label), extends l1 l2 -> SpecCalm.keeps l1 l2.
Proof.
  intros l1 l2 (x & ->) k v. induction l1 as [|[n w] l1 IH]; [discriminate|]. cbn [app dget].
  destruct (str_eqb k n); [exact (fun E => E)|exact IH].
Qed.
Lemma good_tidy : forall s s', good s s' -> held tidy s s'.
Proof. intros s s' G T. apply (G T). Qed.
Lemma good_doom : forall X s s', good s s' -> held (doom X) s s'.
Proof.
  intros X s s' G [T B]. destruct (G T) as (T' & _ & (l & EL & _) & E & _). split; [exact T'|]. destruct B as [C|(a & d & I & D)].
  - left. eapply clash_keeps; [exact C|apply extends_keeps; exact E].
  - right. exists a, d. rewrite EL. split; [apply in_or_app; left; exact I|exact D].
Qed.
Lemma runs_weaken : forall (G H : st -> st -> Prop) A (m : M A) s, (forall a b, G a b -> H a b) -> runs G m s -> runs H m s.
Proof. intros G H A m s W R s' a E. apply W. exact (R s' a E). Qed.

(** Two runs, one with the labels L. *)
Definition wat {A} (X : list (str * label)) (s : st) (L : list (str * label)) (m1 m2 : M A) : Prop :=
  tidy s -> plus X (labels s) L -> forall s' a, m1 s = (s', Ok a) ->
  (exists L', m2 (set_labels s L) = (set_labels s' L', Ok a) /\ plus X (labels s') L') \/ bad X s'.
Definition both {A} X s L (m1 m2 : M A) : Prop := wat X s L m1 m2 /\ runs (held tidy) m1 s /\ runs (held (doom X)) m1 s.

Lemma both_cat : forall A X s L (m1 m2 : M A), cat s L m1 m2 -> runs (held tidy) m1 s -> runs (held (doom X)) m1 s -> both X s L m1 m2.
Proof.
  intros A X s L m1 m2 C R1 R2. split; [|auto]. intros T P s' a E. destruct (C (plus_keeps _ _ _ P) s' a E) as [E1 E2].
  left. exists L. rewrite E1. auto.
Qed.
Lemma both_good : forall A X s L (m1 m2 : M A), cat s L m1 m2 -> runs good m1 s -> both X s L m1 m2.
Proof.
  intros A X s L m1 m2 C R. apply both_cat; [exact C| |]; eapply runs_weaken; try exact R; [apply good_tidy|apply good_doom].
Qed.
Lemma both_lat : forall A X s L (m : M A), lat X m m -> runs good m s -> both X s L m m.
Proof.
  intros A X s L m C R. split; [|split; eapply runs_weaken; try exact R; [apply good_tidy|apply good_doom]].
  intros T P s' a E. destruct (C s L s' a P E) as [_ [(_ & W)|[W _]]]; [left; exact W|right; left; exact W].
Qed.
Lemma both_reader : forall A X s L (m1 m2 : M A), cat s L m1 m2 -> reader m1 -> both X s L m1 m2.
Proof. intros A X s L m1 m2 C R. apply both_good; [exact C|]. apply runs_reader; [exact good_closed|exact R]. Qed.
Lemma both_bind : forall A B X s L (m1 m2 : M A) (k1 k2 : A -> M B), both X s L m1 m2 ->
  (forall t a L', both X t L' (k1 a) (k2 a)) -> both X s L (bind m1 k1) (bind m2 k2).
Proof.
  intros A B X s L m1 m2 k1 k2 (W & R1 & R2) K. split; [|split].
  - intros T P s' b E. unfold bind in *. destruct (m1 s) as [t [a|e]] eqn:F; [|discriminate].
    pose proof (R1 t a F T) as TT. destruct (W T P t a F) as [(L' & E2 & P')|B'].
    + rewrite E2. destruct (K t a L') as (W' & _). exact (W' TT P' s' b E).
    + right. destruct (K t a L) as (_ & _ & R'). apply (R' s' b E). split; assumption.
  - intros s' b E T. unfold bind in E. destruct (m1 s) as [t [a|e]] eqn:F; [|discriminate].
    destruct (K t a L) as (_ & R' & _). apply (R' s' b E). exact (R1 t a F T).
  - intros s' b E T. unfold bind in E. destruct (m1 s) as [t [a|e]] eqn:F; [|discriminate].
    destruct (K t a L) as (_ & _ & R'). apply (R' s' b E). exact (R2 t a F T).
Qed.
Lemma both_get : forall B X s L (k1 k2 : st -> M B), both X s L (k1 s) (k2 (set_labels s L)) -> both X s L (bind get k1) (bind get k2).
Proof. intros B X s L k1 k2 H. exact H. Qed.
Lemma both_iter : forall A X (f : A -> M unit) l s L, (forall a t L', both X t L' (f a) (f a)) -> both X s L (iter f l) (iter f l).
Proof.
  intros A X f l s L H. revert s L. induction l as [|a l IH]; intros s L; cbn [iter]; [apply both_reader; [apply cat_ret|apply reader_ret]|].
  apply both_bind; auto.
Qed.

(** ** Handlers *)

Definition hat {A} X (s : st) L (m1 m2 : M A) : Prop := plus X (labels s) L -> forall s' a, m1 s = (s', Ok a) ->
  labels s' = labels s /\ (m2 (set_labels s L) = (set_labels s' L, Ok a) \/ waits X s').
Lemma hat_cat : forall A X s L (m1 m2 : M A), cat s L m1 m2 -> hat X s L m1 m2.
Proof. intros A X s L m1 m2 C P s' a E. destruct (C (plus_keeps _ _ _ P) s' a E). auto. Qed.
Lemma hat_bind : forall A B X s L (m1 m2 : M A) (k1 k2 : A -> M B), cat s L m1 m2 ->
  (forall t a, hat X t L (k1 a) (k2 a)) -> hat X s L (bind m1 k1) (bind m2 k2).
Proof.
  intros A B X s L m1 m2 k1 k2 C K P s' b E. unfold bind in *. destruct (m1 s) as [t [a|e]] eqn:F; [|discriminate].
  destruct (C (plus_keeps _ _ _ P) t a F) as [E1 E2]. rewrite E2. rewrite <- E1 in P. destruct (K t a P s' b E) as [E3 E4].
  split; [congruence|exact E4].
Qed.
Lemma dset_in : forall V (l : list (Z * V)) k v, In (k, v) (dset Z.eqb l k v).
Proof.
  induction l as [|[k' v'] l IH]; intros k v; cbn [dset]; [left; reflexivity|]. destruct (k =? k') eqn:E; [|right; apply IH].
  left. apply Z.eqb_eq in E. subst. reflexivity.
Qed.
Lemma hat_address : forall a z arg X s L, hat X s L (manage_address a z arg) (manage_address a z arg).
Proof.
  intros a z arg X s L. unfold manage_address. apply hat_bind; [apply cat_parse|]. intros t [v|].
  { apply hat_cat. cgo. }
  clear s. rename t into s. intros P s' b E. unfold bind at 1 in E. unfold bind at 1. unfold m_label_absolute in *.
  cbn [labels set_labels] in *. cbv zeta in *.
  assert (POST : forall u M s' b, match a with
            | Some a0 => add_label_translation (LabelData arg 2 16 0 1 1 None None None);;
                (let! b := lift (pack false [FB; FH] [a0; 0]) in ret (Some b))
            | None => araise AbsoluteAddressNotAllowed end u = (s', Ok b) ->
       labels s' = labels u /\ match a with
            | Some a0 => add_label_translation (LabelData arg 2 16 0 1 1 None None None);;
                (let! b := lift (pack false [FB; FH] [a0; 0]) in ret (Some b))
            | None => araise AbsoluteAddressNotAllowed end (set_labels u M) = (set_labels s' M, Ok b) /\
       In (zlen (assembled u) + 1, LabelData arg 2 16 0 1 1 None None None) (labels_addresses s')).
  { intros u M w x F. destruct a as [a0|]; [|discriminate]. unfold add_label_translation, bind, modify, lift, ret in *.
    destruct (pack false [FB; FH] [a0; 0]); [|discriminate]. injection F as <- <-. split; [reflexivity|]. split; [reflexivity|].
    cbn [labels_addresses set_labels_addresses ld_offset]. apply dset_in. }
  destruct (label_absolute mos6502_p (labels s) arg) as [[v|]|e] eqn:LA; [| |discriminate].
  - assert (LB : label_absolute mos6502_p L arg = Ok (Some v)).
    { exact (relative_more mos6502_p (labels s) L arg 0 v (plus_keeps _ _ _ P) LA). }
    rewrite LB. destruct z as [z|]; [destruct (is_zero_page v)|].
    + revert E. generalize (pack_byte [Some z; Some v]). intros r E. unfold lift, bind, ret in *. destruct r; [|discriminate].
      injection E as <- <-. split; [reflexivity|left; reflexivity].
    + destruct (POST s L s' b E) as (E1 & E2 & _). auto.
    + destruct (POST s L s' b E) as (E1 & E2 & _). auto.
  - destruct (POST s L s' b E) as (E1 & E2 & I). split; [exact E1|].
    assert (N : dget str_eqb (labels s) (fst (fst (get_math_formula arg))) = None).
    { unfold label_absolute, label_by_name_with in LA. destruct (get_math_formula arg) as [[nm pre] post]. cbn [fst].
      destruct (dget str_eqb (labels s) nm) as [lb|]; [|reflexivity]. exfalso.
      revert LA. generalize (apply_math_formula mos6502_p (labels s) math_fuel pre post (label_address lb - 0)). intros [y|y]; discriminate. }
    destruct (dget str_eqb X (fst (fst (get_math_formula arg)))) as [x|] eqn:DX.
    + right. exists (zlen (assembled s) + 1), (LabelData arg 2 16 0 1 1 None None None). cbn [ld_label]. rewrite DX. split; [exact I|discriminate].
    + left. assert (LB : label_absolute mos6502_p L arg = Ok None).
      { unfold label_absolute, label_by_name_with. pose proof (P (fst (fst (get_math_formula arg)))) as Q. rewrite N, DX in Q.
        destruct (get_math_formula arg) as [[nm pre] post]. cbn [fst] in Q. rewrite Q. reflexivity. }
      rewrite LB. exact E2.
Qed.
Lemma hat_except : forall A X s L (m : M A), hat X s L m m -> hat X s L (except_key_error m) (except_key_error m).
Proof.
  intros A X s L m H P s' a E. unfold except_key_error in *. destruct (m s) as [u [b|[x|x]]] eqn:F; try discriminate.
  - injection E as <- <-. destruct (H P _ _ F) as [E1 [E2|E2]]; (split; [exact E1|]); [left; rewrite E2; reflexivity|right; exact E2].
  - destruct x; discriminate.
Qed.
Lemma hat_mode : forall k t X s L, hat X s L (manage_mode k t) (manage_mode k t).
Proof.
  intros k t X s L. unfold manage_mode. destruct (negb _); [apply hat_cat, cat_araise|]. apply hat_except.
  assert (KW : forall n s L, cat s L (kwarg k n) (kwarg k n)) by (intros n u M; unfold kwarg; cgo).
  repeat lazymatch goal with
  | |- hat _ _ _ (if ?b then _ else _) _ => destruct b
  | |- hat _ _ _ (bind (kwarg _ _) _) _ => apply hat_bind; [apply KW|intros ? ?]
  | |- hat _ _ _ (bind (tok_at _ _) _) _ => apply hat_bind; [apply cat_tok|intros ? ?]
  | |- hat _ _ _ (manage_address _ _ _) _ => apply hat_address
  | |- hat _ _ _ _ _ => apply hat_cat; hgo
  end.
Qed.
Lemma hat_branching : forall k t X s L, hat X s L (manage_branching k t) (manage_branching k t).
Proof. intros. apply hat_cat. unfold manage_branching. hgo. Qed.

(** Every handler is one of these. *)
Definition uses_labels (c : cfg) : Prop := forall X key f tokens s L, dget str_eqb (c_instructions c) key = Some (OFun f) ->
  hat X s L (f tokens) (f tokens).
Lemma mos_uses : forall e dirs, uses_labels (mk_cfg mos6502_p e mos6502_ops dirs [] []).
Proof.
  intros e dirs X key f tokens s L D. unfold mk_cfg in D. cbn [c_instructions] in D. apply registered in D. destruct D as [D|D]; [discriminate|].
  unfold mos6502_ops in D. rewrite !map_app, !in_app_iff in D. destruct D as [D|[D|D]].
  - destruct (rows _ manage_mode _ _ D) as [v ->]. apply hat_mode.
  - destruct (rows _ manage_branching _ _ D) as [v ->]. apply hat_branching.
  - exfalso. rewrite map_map in D. apply in_map_iff in D. destruct D as ([n v] & E & _). discriminate.
Qed.

(** ** Programs *)

Section Runs.
  Context (c : cfg) (X : list (str * label)) (NE : handlers neat c) (UL : uses_labels c)
    (CU : forall k f tokens s L, dget str_eqb (c_directives c) k = Some (D_custom f) -> both X s L (f tokens) (f tokens)).
  Let c_tidy : closed (held tidy) := held_closed tidy good_tidy.
  Let c_doom : closed (held (doom X)) := held_closed (doom X) (good_doom X).

  Lemma both_opcode : forall key t s L, both X s L (opcode_assemble c key t) (opcode_assemble c key t).
  Proof.
    intros key t s L. split.
    - intros T P s' a E. unfold opcode_assemble in *. destruct (dget str_eqb (c_instructions c) key) as [[b|f]|] eqn:D; [| |discriminate].
      + left. destruct (negb _); [discriminate|]. injection E as <- <-. exists L. split; [reflexivity|exact P].
      + unfold bind, call_handler in *. destruct (f t s) as [u [[b|]|[x|x]]] eqn:F; try discriminate.
        destruct (UL X _ _ t s L D P _ _ F) as [E1 [E2|W]].
        * left. rewrite E2. exists L. injection E as <- <-. split; [reflexivity|]. change (plus X (labels u) L). rewrite E1. exact P.
        * right. right. injection E as <- <-. exact W.
    - assert (R : runs good (opcode_assemble c key t) s) by (apply runs_opcode; [exact good_closed|exact NE]).
      split; eapply runs_weaken; try exact R; [apply good_tidy|apply good_doom].
  Qed.
  Lemma both_store : forall pl t s L, both X s L (store_tokens pl t) (store_tokens pl t).
  Proof. intros. apply both_good; [apply cat_store|apply runs_store; exact good_closed]. Qed.
  Lemma both_tok : forall l i s L, both X s L (tok_at l i) (tok_at l i).
  Proof. intros. apply both_reader; [apply cat_tok|apply reader_tok_at]. Qed.
  Lemma both_praise : forall A e s L (m : M A), both X s L (praise e) m.
  Proof. intros. apply both_reader; [apply cat_praise|apply reader_praise]. Qed.
  Lemma both_araise : forall A e s L (m : M A), both X s L (araise e) m.
  Proof. intros. apply both_reader; [apply cat_araise|apply reader_araise]. Qed.
  Lemma both_loop : forall run key params args n i s L, (forall pl t s L, both X s L (run pl t) (run pl t)) ->
    both X s L (macro_loop run key params args n i) (macro_loop run key params args n i).
  Proof.
    intros run key params args n. induction n as [|n IH]; intros i s L H; cbn [macro_loop]; [apply both_reader; [apply cat_ret|apply reader_ret]|].
    apply both_get. cbn [macros set_labels]. destruct (dget str_eqb (macros s) key) as [m|]; [|apply both_reader; first [apply cat_ret | apply reader_ret]].
    destruct (nth_error (m_body m) i) as [x|]; [|apply both_reader; first [apply cat_ret | apply reader_ret]]. cbv zeta.
    repeat lazymatch goal with
    | |- both _ _ _ (bind get _) _ => apply both_get; cbn [macros defines set_labels]
    | |- both _ _ _ (bind (store_tokens _ _) _) _ => apply both_bind; [apply both_store|intros ? ? ?]
    | |- both _ _ _ (bind (tok_at _ _) _) _ => apply both_bind; [apply both_tok|intros ? ? ?]
    | |- both _ _ _ (bind (lift _) _) _ => apply both_bind; [apply both_reader; [apply cat_lift|apply reader_lift]|intros ? ? ?]
    | |- both _ _ _ (bind (run _ _) _) _ => apply both_bind; [apply H|intros ? ? ?]
    end.
    apply IH. exact H.
  Qed.
  Lemma both_instruction : forall fuel l pl t s L, both X s L (instruction_assemble c fuel l pl t) (instruction_assemble c fuel l pl t).
  Proof.
    intros fuel. induction fuel as [|f IH]; intros l pl t s L; cbn [instruction_assemble];
      apply both_get; cbn [macro_recording macros defines set_labels];
      (destruct (macro_recording s) as [key|];
       [apply both_good;
         [apply cat_modify; cbn [macros set_labels]; destruct (dget str_eqb (macros s) key); reflexivity
         |apply runs_modify; destruct (dget str_eqb (macros s) key); [apply good_same; reflexivity|apply good_refl]]|]);
      cbv zeta; (apply both_bind; [apply both_store|]); intros ? ? ?; (apply both_bind; [apply both_tok|]); intros ? ? ?;
      match goal with |- both _ _ _ (match ?x with _ => _ end) _ => destruct x end; try apply both_opcode.
    - apply both_praise.
    - apply both_loop. intros. apply IH.
  Qed.
  Lemma both_directive : forall asm t s L, (forall x s L, both X s L (asm x) (asm x)) ->
    both X s L (directive_assemble c asm t) (directive_assemble c asm t).
  Proof.
    intros asm t s L HA. unfold directive_assemble. apply both_get. cbn [defines set_labels]. cbv zeta.
    apply both_bind; [apply both_tok|]. intros u t0 L'.
    destruct (dget str_eqb (c_directives c) _) as [d|] eqn:D; [|apply both_araise].
    assert (LD : d = D_include \/ (exists f, d = D_custom f) \/ (d <> D_include /\ forall f, d <> D_custom f)).
    { destruct d; first [left; reflexivity | right; left; eexists; reflexivity | right; right; split; [discriminate|intros; discriminate]]. }
    destruct LD as [-> |[[f ->]|[N1 N2]]].
    - cbn [run_directive]. unfold directive_include. destruct (negb _); [apply both_araise|].
      apply both_bind; [apply both_tok|]. intros ? ? ?. apply both_bind; [apply both_reader; [apply cat_lift|apply reader_lift]|]. intros ? ? ?.
      apply both_bind; [apply both_reader; [apply cat_open|apply reader_open_file]|]. intros ? ? ?. apply HA.
    - cbn [run_directive]. eapply CU. exact D.
    - apply both_good; [apply cat_run; [exact N1|intros f E; destruct (N2 f E)]|].
      apply runs_directive; [exact good_closed|intros f E; destruct (N2 f E)|intros E; destruct (N1 E)].
  Qed.
  Lemma both_statement : forall fuel asm x s L, (forall x s L, both X s L (asm x) (asm x)) ->
    both X s L (statement_assemble c fuel asm x) (statement_assemble c fuel asm x).
  Proof.
    intros fuel asm x s L HA. unfold statement_assemble. destruct (s_kind x);
      first [apply both_instruction | apply both_directive; exact HA
            | apply both_lat; [apply lat_label|apply runs_label; exact good_closed]].
  Qed.
  Lemma both_assemble : forall fuel text s L, both X s L (assemble c fuel text) (assemble c fuel text).
  Proof.
    intros fuel. induction fuel as [|f IH]; intros text s L; cbn [assemble];
      (apply both_bind; [apply both_reader; [apply cat_lift|apply reader_lift]|]); intros ? ss ?;
      (apply both_bind; [apply both_iter; intros x ? ?; apply both_statement|
         intros ? ? ?; apply both_good; [unfold assemble_tail; cgoes|apply runs_tail; exact good_closed]]);
      [intros; apply both_praise|exact IH].
  Qed.
  Lemma both_exec : forall fuel ss s L, both X s L (exec c fuel ss) (exec c fuel ss).
  Proof.
    intros fuel ss s L. unfold exec. apply both_iter. intros x ? ?. apply both_statement.
    destruct fuel; [intros; apply both_praise|intros; apply both_assemble].
  Qed.
End Runs.

(** ** Linking *)

Lemma head_known : forall p l t x, label_absolute p l t = Ok (Some x) -> dget str_eqb l (fst (fst (get_math_formula t))) <> None.
Proof.
  intros p l t x H. unfold label_absolute, label_by_name_with in H. destruct (get_math_formula t) as [[nm pre] post]. cbn [fst].
  destruct (dget str_eqb l nm); [discriminate|discriminate].
Qed.
Lemma resolve_known : forall p a d s s', resolve_one p dummy_linker a d s = (s', Ok tt) ->
  dget str_eqb (labels s) (fst (fst (get_math_formula (ld_label d)))) <> None.
Proof.
  intros p a d s s' E. unfold resolve_one in E. unfold bind at 1 in E. unfold m_label_absolute in *.
  destruct (label_absolute p (labels s) (ld_label d)) as [[x|]|e] eqn:LA; [eapply head_known; eauto| |discriminate].
  exfalso. unfold bind at 1 in E. destruct (negb (ld_relative d =? 0)) eqn:RL.
  - assert (LR : label_relative p (labels s) (ld_label d) (ld_relative d) = Ok None) by (apply absolute_head with (start := 0); exact LA).
    rewrite LR in E. unfold bind at 1, dummy_linker, lk_resolve, araise, raise, bind at 1 in E. discriminate.
  - unfold ret at 1 in E. unfold bind at 1, dummy_linker, lk_resolve, araise, raise, bind at 1 in E. discriminate.
Qed.
Lemma resolve_labels_same : forall p a d s s', resolve_one p dummy_linker a d s = (s', Ok tt) -> labels s' = labels s.
Proof. intros p a d s s' E. exact (proj1 (cat_resolve p a d s (labels s) (fun k v D => D) s' tt E)). Qed.
Lemma link_known : forall c s s' a d, c_pre_link c = [] -> link c dummy_linker s = (s', Ok tt) -> In (a, d) (labels_addresses s) ->
  dget str_eqb (labels s) (fst (fst (get_math_formula (ld_label d)))) <> None.
Proof.
  intros c s s' a d NP E I. unfold link in E. rewrite NP in E. cbn [iter] in E. unfold bind at 1, ret at 1 in E.
  unfold bind at 1 in E. destruct (resolve_labels (c_p c) dummy_linker s) as [t [[]|e]] eqn:R; [|discriminate]. clear E.
  unfold resolve_labels, bind, get in R.
  assert (H : forall l u, labels u = labels s -> iter (fun '(address, d) => resolve_one (c_p c) dummy_linker address d) l u = (t, Ok tt) ->
    In (a, d) l -> dget str_eqb (labels s) (fst (fst (get_math_formula (ld_label d)))) <> None).
  { induction l as [|[a0 d0] l IH]; intros u EU F J; [destruct J|]. cbn [iter] in F. unfold bind in F.
    destruct (resolve_one (c_p c) dummy_linker a0 d0 u) as [v [[]|e]] eqn:RO; [|discriminate]. destruct J as [J|J].
    - injection J as -> ->. rewrite <- EU. eapply resolve_known; eauto.
    - eapply IH; [|exact F|exact J]. rewrite (resolve_labels_same _ _ _ _ _ RO). exact EU. }
  exact (H _ s eq_refl R I).
Qed.

(** ** The 6502 and the NES *)

Lemma mos_customs : forall X e k f tokens s L, dget str_eqb (c_directives (mos6502 e)) k = Some (D_custom f) -> both X s L (f tokens) (f tokens).
Proof. intros X e k f tokens s L D. apply custom_in in D. destruct D. Qed.
Lemma fill_both : forall X p address size tokens s L, both X s L (cartridge_fill p address size tokens) (cartridge_fill p address size tokens).
Proof.
  assert (T : forall p address size tokens s s', cartridge_fill p address size tokens s = (s', Ok tt) -> tidy s -> tidy s').
  { intros p address size tokens s s' H (ivs & F & I & D). apply fill_inv in H. destruct H as (blob & out & _ & W & ->). apply write_len in W.
    exists ivs. cbn [labels_addresses assembled set_assembled]. rewrite W. auto. }
  intros X p address size tokens s L. apply both_cat; [apply cat_fill| |].
  - intros s' [] H TS. eapply T; eauto.
  - intros s' [] H [TS B]. split; [eapply T; eauto|]. apply fill_inv in H. destruct H as (blob & out & _ & _ & ->). exact B.
Qed.
Lemma nes_cartridge_good : forall tokens s s', nes_cartridge tokens s = (s', Ok tt) -> good s s'.
Proof.
  intros tokens s s' H. unfold nes_cartridge, bind, get in H. destruct (negb _); [discriminate|].
  unfold append_assembled_bytes, modify in H. injection H as <-. eapply good_append; reflexivity.
Qed.
Lemma nes_customs : forall X e k f tokens s L, dget str_eqb (c_directives (nes e)) k = Some (D_custom f) -> both X s L (f tokens) (f tokens).
Proof.
  intros X e k f tokens s L D. apply custom_in in D. cbn [nes_directives map snd In] in D.
  repeat destruct D as [D|D]; try contradiction; injection D as <-; try apply fill_both.
  - apply both_good; [apply cat_nes_cartridge|]. intros s' [] H. eapply nes_cartridge_good; eauto.
  - apply both_good; [apply cat_tiles|]. apply tiles_run. exact good_closed.
Qed.
Lemma nes_neat : forall e, handlers neat (nes e).
Proof. intros e. exact (proj2 (mos_fits e)). Qed.

Lemma linked_same : forall c m, c_pre_link c = [] -> c_post_link c = [] ->
  (forall X s L, both X s L m m) -> linked_alike c m.
Proof.
  intros c m NP NQ BM X s s' l T E NC P. unfold bind in *. destruct (m s) as [t [[]|e]] eqn:A; [|discriminate].
  assert (CL : forall s L, cat s L (link c dummy_linker) (link c dummy_linker)).
  { intros u L. unfold link. rewrite NP, NQ. apply cat_bind; [apply cat_ret|]. intros s1 [].
    apply cat_bind; [unfold resolve_labels; apply cat_get; cbn [labels_addresses set_labels]; apply cat_iter; intros [a d] w; apply cat_resolve|].
    intros s2 []. apply cat_bind; [apply cat_ret|]. intros s3 []. unfold dummy_linker, lk_link. cgo. }
  assert (EL : labels s' = labels t) by exact (proj1 (CL t (labels t) (fun k v D => D) s' tt E)).
  destruct (BM X s l) as (W & _). destruct (W T P t tt A) as [(L' & E2 & P')|[C|(a & d & I & D)]].
  - rewrite E2. exists L'. rewrite EL. split; [exact P'|]. exact (proj2 (CL t L' (plus_keeps _ _ _ P') s' tt E)).
  - exfalso. apply NC. rewrite EL. exact C.
  - exfalso. apply NC. rewrite EL. exists (fst (fst (get_math_formula (ld_label d)))). split; [exact D|]. eapply link_known; eauto.
Qed.
Lemma calm_linked : forall c m, calm_plugins c -> (forall X, lat X m m) -> linked_alike c m.
Proof.
  intros c m HC LM X s s' l T E NC P.
  assert (LB : lat X (m ;; link c dummy_linker) (m ;; link c dummy_linker)).
  { apply lat_bind; [apply LM|]. intros _. apply lat_cat. intros. apply cat_link. exact HC. }
  destruct (LB s l s' tt P E) as [_ [(_ & L' & E2 & P')|[C _]]]; [eauto|contradiction].
Qed.
Lemma mos_both : forall e X, (forall fuel text s L, both X s L (assemble (mos6502 e) fuel text) (assemble (mos6502 e) fuel text)) /\
  (forall fuel ss s L, both X s L (exec (mos6502 e) fuel ss) (exec (mos6502 e) fuel ss)).
Proof.
  intros e X. split; intros; [apply both_assemble|apply both_exec]; try exact (proj2 (mos_fits e)); try apply mos_uses;
    intros; eapply mos_customs; eauto.
Qed.
Lemma nes_both : forall e X, (forall fuel text s L, both X s L (assemble (nes e) fuel text) (assemble (nes e) fuel text)) /\
  (forall fuel ss s L, both X s L (exec (nes e) fuel ss) (exec (nes e) fuel ss)).
Proof.
  intros e X. split; intros; [apply both_assemble|apply both_exec]; try exact (nes_neat e); try apply mos_uses;
    intros; eapply nes_customs; eauto.
Qed.
