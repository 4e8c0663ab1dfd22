(** A small assembler used in examples and witnesses. *)
From Verif Require Import Py PyFacts Utils Tokenizer SpecTok State Assembler SpecUtils Events SpecExec ExecFacts.
Local Open Scope Z_scope.

Definition demo_p : pcfg :=
  PCfg [#"$"] [] [#"%"] [] [#"@"] [] [] [] false 0 false.

(** One argument: a 16-bit number or label after an opcode byte. *)
Definition demo_ldi (tokens : list str) : M (option bytes) :=
  match tokens with
  | [_; t] =>
      let! v := parse_integer_or_label demo_p (LabelData t 2 16 0 1 1 None None None) false in
      let! b := lift (pack_le16u [Some v]) in
      ret (Some (1 :: b))
  | _ => ret None
  end.

(** A branch: 8-bit displacement from the next instruction. *)
Definition demo_bra (tokens : list str) : M (option bytes) :=
  match tokens with
  | [_; t] =>
      let! s := get in
      let! v := parse_integer_or_label demo_p (LabelData t 1 8 (pc s + 2) 1 1 None None None) true in
      let! b := lift (pack_8s [Some v]) in
      ret (Some (2 :: b))
  | _ => ret None
  end.

Definition demo_env : env :=
  Env (fun n => if str_eqb n #"inc.s" then Some #"nop" else None)
      (fun n => if str_eqb n #"x.bin" then Some [1; 2; 255] else None)
      (fun _ => None) (fun _ => None) (fun _ => None).

Definition demo_ops : list (str * opcode) :=
  [ (#"NOP", OStatic [234]); (#"LDI", OFun demo_ldi); (#"BRA", OFun demo_bra);
    (#"NONE", OFun (fun _ => ret None)); (#"BOOM", OFun (fun _ => praise KeyError)) ].

Definition demo : cfg := mk_cfg demo_p demo_env demo_ops [] [] [].

(** Lines of a program. *)
Definition lines (l : list string) : str :=
  flat_map (fun x => list_ascii_of_string x ++ [newline]) l.

Definition demo_run (l : list string) : st * res unit :=
  assemble demo 5 (lines l) (init_st []).
Definition demo_state (l : list string) : st := fst (demo_run l).

Lemma dget_In : forall V (d : list (str * V)) k v, dget str_eqb d k = Some v -> In v (map snd d).
Proof.
  induction d as [|[a x] d IH]; intros k v H; cbn [dget] in H; [discriminate|].
  destruct (str_eqb k a); [injection H as <-; left; reflexivity|right; eauto].
Qed.

(** The handlers only record references. *)
Definition only_refs (s s' : st) : Prop :=
  exists la, s' = set_labels_addresses s la.

Lemma poil_refs : forall p d sg s, only_refs s (fst (parse_integer_or_label p d sg s)).
Proof.
  intros. unfold parse_integer_or_label, m_parse_integer, bind.
  destruct (parse_integer p (labels s) (ld_label d) (ld_bits_size d) (sg || negb (ld_relative d =? 0)))
    as [[v|]|e]; unfold ret; cbn; unfold only_refs; eexists; try reflexivity;
    instantiate (1 := labels_addresses s); destruct s; reflexivity.
Qed.

Lemma demo_table : c_instructions demo = demo_ops.
Proof. reflexivity. Qed.
Lemma demo_directives : forall f, ~ In (D_custom f) (map snd (c_directives demo)).
Proof.
  intros f H. vm_compute in H. repeat (destruct H as [H|H]; [discriminate H|]). contradiction.
Qed.
Lemma demo_handler : forall k o, dget str_eqb (c_instructions demo) k = Some o ->
  o = OStatic [234] \/ o = OFun demo_ldi \/ o = OFun demo_bra \/ o = OFun (fun _ => ret None) \/
  o = OFun (fun _ => praise KeyError).
Proof.
  intros k o H. rewrite demo_table in H. apply dget_In in H. cbn [demo_ops map snd In] in H.
  repeat (destruct H as [<-|H]; [tauto|]). contradiction.
Qed.

Lemma demo_plugins : forall R : st -> st -> Prop,
  (forall s, R s s) ->
  (forall s d, plain_hook d -> R s (set_labels_addresses s
     (dset Z.eqb (labels_addresses s) (zlen (assembled s) + ld_offset d) d))) ->
  plugins_keep R demo.
Proof.
  intros R RR RA.
  assert (K : forall d sg s (k : Z -> M (option bytes)), plain_hook d -> (forall v s, fst (k v s) = s) ->
     R s (fst (bind (parse_integer_or_label demo_p d sg) k s))).
  { intros d sg s k P RK. unfold bind, parse_integer_or_label, m_parse_integer, bind.
    match goal with |- context [parse_integer ?a ?b ?c ?d ?e] => destruct (parse_integer a b c d e) as [[v|]|e'] end;
      cbn [ret add_label_translation modify fst]; try rewrite RK; auto. }
  assert (RP : forall (o v : Z) s (pk : list (option Z) -> res bytes), fst ((let! b := lift (pk [Some v]) in ret (Some (o :: b))) s) = s).
  { intros o v s pk. unfold bind, lift. destruct (pk [Some v]); reflexivity. }
  split.
  - intros k f tokens s H. apply demo_handler in H.
    destruct H as [H|[H|[H|[H|H]]]]; try discriminate H; injection H as ->; try apply RR.
    + unfold demo_ldi. destruct tokens as [|x [|t [|]]]; try apply RR.
      apply K; [left; reflexivity|]. intros; apply RP.
    + unfold demo_bra. destruct tokens as [|x [|t [|]]]; try apply RR.
      unfold bind at 1, get. apply K; [left; reflexivity|]. intros; apply RP.
  - intros k f tokens s H. exfalso. apply dget_In in H. eapply demo_directives; eauto.
Qed.

Lemma demo_bytes : byte_tables demo.
Proof.
  split; [|split].
  - intros k b H. apply demo_handler in H.
    destruct H as [H|[H|[H|[H|H]]]]; try discriminate H. injection H as ->.
    apply Forall_cons; [|apply Forall_nil]. unfold is_byte. split; [discriminate|reflexivity].
  - intros n b H. cbn [demo mk_cfg c_env file_bytes demo_env] in H.
    destruct (str_eqb n #"x.bin"); [|discriminate]. injection H as <-.
    repeat (apply Forall_cons; [unfold is_byte; split; [discriminate|reflexivity]|]). apply Forall_nil.
  - intros k f tokens s b H.
    assert (K : forall o d sg s pk, is_byte o -> (forall v b, pk [Some v] = Ok b -> Forall is_byte b) ->
       snd ((let! v := parse_integer_or_label demo_p d sg in
             let! b := lift (pk [Some v]) in ret (Some (o :: b))) s) = Ok (Some b) ->
       Forall is_byte b).
    { clear. intros o d sg s pk O P. unfold bind at 1.
      destruct (parse_integer_or_label demo_p d sg s) as [s' [v|e]]; [|discriminate].
      unfold bind, lift. destruct (pk [Some v]) eqn:E; [|discriminate]. cbn. intros X; injection X as <-.
      constructor; eauto. }
    apply demo_handler in H.
    destruct H as [H|[H|[H|[H|H]]]]; try discriminate H; injection H as ->; try discriminate.
    + unfold demo_ldi.
      destruct tokens as [|x [|t [|]]]; try discriminate. apply K; [unfold is_byte; split; [discriminate|reflexivity]|].
      intros v b' P. eapply struct_pack_byte. exact P.
    + unfold demo_bra.
      destruct tokens as [|x [|t [|]]]; try discriminate. unfold bind at 1, get.
      apply K; [unfold is_byte; split; [discriminate|reflexivity]|].
      intros v b' P. eapply struct_pack_byte. exact P.
Qed.
