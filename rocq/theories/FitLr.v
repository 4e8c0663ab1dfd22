(** The LR35902 handlers are well-behaved. *)
From Coq Require Import Lia.
From Verif Require Import Py PyFacts Utils Tokenizer State Assembler Instr Lr35902.
From Verif Require Import SpecUtils SpecExec SpecLink SpecCpu Events CpuFacts FitFacts LrFacts LrEnc.
Local Open Scope Z_scope.

Lemma lr_pure_eke : forall A (Q : A -> list labeldata -> Prop) m, pure Q m -> pure Q (lr_except_key_error m).
Proof.
  intros A Q m H s. destruct (H s) as (ds & r & H1 & H2 & H3).
  exists ds, (match r with Err (PExc KeyError) => Err (AExc InvalidOpCodeArguments) | _ => r end).
  split; [|split; auto].
  - intros s2 V. unfold lr_except_key_error. rewrite (H1 s2 V). destruct r as [a|[e|e]]; auto. destruct e; auto.
  - intros a E. apply H3. destruct r as [x|[e|[]]]; try discriminate; auto.
Qed.
Lemma lr_pure_kwarg : forall kw k, pure (fun _ ds => ds = []) (lr_kwarg kw k).
Proof. intros. unfold lr_kwarg. destruct (dget str_eqb kw k); [apply pure_ret; auto|apply pure_praise]. Qed.

(** An operand is n bytes with at most one reference, to all of them. *)
Definition tail_ok (b : bytes) (ds : list labeldata) : Prop :=
  Forall is_byte b /\ (ds = [] \/ exists d, ds = [d] /\ ld_offset d = 1 /\ ld_size d <= zlen b).
Ltac tail := split; [packed; eapply struct_pack_byte; eassumption|
  first [left; reflexivity
        | right; eexists; split; [reflexivity|]; split; [reflexivity|]; packed; out_len; lia]].
Lemma lr_pure_operand : forall o t, pure tail_ok (lr_operand o t).
Proof.
  intros [] t; cbn [lr_operand].
  - eapply pure_bind; [apply pure_poil; sound|]. intros ? ? [-> | [-> ->]];
      (eapply pure_weaken; [apply pure_lift|]; intros ? ? [? ->]; rewrite ?app_nil_r; tail).
  - apply pure_pc with (k := fun z => let! value := parse_integer_or_label lr_p (LabelData t 1 8 (z + 2) 1 1 None None None) false in
      lift (pack_8s [Some value])). intros z.
    eapply pure_bind; [apply pure_poil; sound|]. intros ? ? [-> | [-> ->]];
      (eapply pure_weaken; [apply pure_lift|]; intros ? ? [? ->]; rewrite ?app_nil_r; tail).
  - eapply pure_bind; [apply pure_poil; sound|]. intros ? ? [-> | [-> ->]];
      (eapply pure_weaken; [apply pure_lift|]; intros ? ? [? ->]; rewrite ?app_nil_r; tail).
Qed.
Lemma head_byte : forall k (l : list (option Z)) b, pack_byte (l ++ [Some k]) = Ok b -> Forall is_byte b /\ 1 <= zlen b.
Proof.
  intros k l b H. unfold pack_byte, pack_u in H. split; [eapply struct_pack_byte; eassumption|].
  rewrite (struct_pack_length _ _ _ _ H), map_app. clear. induction l as [|x l IH]; cbn [map app fold_right] in *.
  - cbn. lia.
  - assert (0 <= Z.of_nat (sf_size FB)) by lia. lia.
Qed.
Lemma joined : forall (b bo : bytes) ds, Forall is_byte b -> 1 <= zlen b -> tail_ok bo ds -> ok_out (Some (b ++ bo)) ds.
Proof.
  intros b bo ds B L [T D] x E. injection E as <-. split; [apply Forall_app; split; assumption|].
  destruct D as [-> |(d & -> & O & S)]; [apply placed_nil|]. apply placed_one; [lia|]. rewrite zlen_app. lia.
Qed.
Lemma tail_nil : tail_ok [] [].
Proof. split; [constructor|left; reflexivity]. Qed.

Lemma build_ok : forall pre bs kw tokens, pure ok_out (build pre bs kw tokens).
Proof.
  intros. unfold build. apply lr_pure_eke. destruct (find (br_holds kw tokens) bs) as [b|].
  2:{ apply pure_ret. intros x E. discriminate. }
  eapply pure_bind with (Q := tail_ok).
  - destruct (br_operand b) as [[[o i] d]|]; [|apply pure_ret; apply tail_nil].
    eapply pure_bind; [apply pure_tok|]. intros ? ? ->. apply lr_pure_operand.
  - intros bo ds T. eapply pure_bind; [apply lr_pure_kwarg|]. intros code ? ->. pure_step. apply pure_ret.
    rewrite map_app in H. cbn [map] in H. destruct (head_byte _ _ _ H) as [B L].
    rewrite !app_nil_r. apply joined; assumption.
Qed.
Lemma operand_op : forall k (t : M str) o, pure (fun _ ds => ds = []) t -> pure ok_out
  (let! t := t in let! a8 := lr_operand o t in let! b := lift (pack_byte [Some k]) in ret (Some (b ++ a8))).
Proof.
  intros k t o T. eapply pure_bind; [exact T|]. intros ? ? ->. eapply pure_bind; [apply lr_pure_operand|]. intros bo ds X.
  pure_step. apply pure_ret. destruct (head_byte _ [] _ H) as [B L]. rewrite !app_nil_r. cbn [app]. apply joined; assumption.
Qed.
Lemma ldh_ok : forall tokens, pure ok_out (lr_ldh_op tokens).
Proof.
  intros. unfold lr_ldh_op. destruct (existsb (imatch tokens 1) _); [apply operand_op, pure_tok|].
  destruct (existsb (imatch tokens 1) _); [apply operand_op, pure_tok|]. apply pure_ret. intros x E. discriminate.
Qed.
Lemma ld_ok : forall kw tokens, pure ok_out (lr_ld kw tokens).
Proof.
  intros. assert (ST : forall arg, pure ok_out (let! value := lr_operand R8 arg in let! b := lift (pack_byte [Some 0xF8]) in ret (Some (b ++ value)))).
  { intros arg. apply (operand_op 0xF8 (ret arg) R8). apply pure_ret. reflexivity. }
  unfold lr_ld. destruct tokens as [|a [|b [|t rest]]]; try apply build_ok.
  destruct (starts_with #"SP+" t); [apply ST|]. destruct (starts_with #"SP-" t); [apply ST|]. apply build_ok.
Qed.
Lemma lr_ret_ok : forall kw tokens, pure ok_out (lr_ret kw tokens).
Proof.
  intros. unfold lr_ret. destruct (Nat.eqb (length tokens) 1); [|apply build_ok]. apply pure_ret. intros x E. injection E as <-.
  split; [repeat constructor; lia|apply placed_nil].
Qed.
Lemma lr_stop_ok : forall tokens, pure ok_out (lr_stop tokens).
Proof. intros. unfold lr_stop. repeat (pure_step; try out). intros x E. discriminate. Qed.
Lemma lr_rst_ok : forall tokens, pure ok_out (lr_rst tokens).
Proof.
  intros. unfold lr_rst. pure_step; [|apply pure_ret; intros x E; discriminate]. pure_step.
  eapply pure_bind; [apply lr_pure_kwarg|]. intros ? ? ->. repeat (pure_step; try out).
Qed.

Lemma lr_all : Forall (fun '(n, o) => match o with OStatic b => Forall is_byte b | OFun f => forall tokens, pure ok_out (f tokens) end) lr_ops.
Proof.
  unfold lr_ops. apply Forall_app. split; [|apply Forall_app; split; [|apply Forall_app; split]].
  - assert (X : forallb (fun '(_, k) => (0 <=? k) && (k <? 256)) lr_static = true) by reflexivity.
    rewrite forallb_forall in X. apply Forall_forall. intros [n o] I. apply in_map_iff in I. destruct I as ((m & k) & E & I).
    injection E as <- <-. apply X in I. repeat constructor; unfold is_byte; lia.
  - apply Forall_forall. intros [n o] I. apply in_map_iff in I. destruct I as ((m & ((c & r) & k)) & E & I). injection E as <- <-.
    intros. apply build_ok.
  - apply Forall_forall. intros [n o] I. apply in_map_iff in I. destruct I as ((m & k) & E & I). injection E as <- <-.
    intros. apply build_ok.
  - constructor; [apply ldh_ok|]. constructor; [apply ld_ok|]. constructor; [apply lr_ret_ok|].
    constructor; [apply lr_stop_ok|]. constructor; [apply lr_rst_ok|]. constructor.
Qed.
Lemma lr_fits : forall e, fits (lr35902 e) /\ handlers neat (lr35902 e).
Proof.
  intros e. pose proof lr_all as A. rewrite Forall_forall in A.
  assert (H : handlers (fun f => forall tokens, pure ok_out (f tokens)) (lr35902 e)).
  { intros k f D. rewrite lr_instructions in D. apply (dget_In str_eqb str_eqb_eq) in D. apply A in D. exact D. }
  split; [split; [|split]|].
  - intros k f D. apply pure_handler. eapply H; eauto.
  - intros k b D. rewrite lr_instructions in D. apply (dget_In str_eqb str_eqb_eq) in D. apply A in D. exact D.
  - apply bare_mk.
  - intros k f D. apply pure_handler. eapply H; eauto.
Qed.
