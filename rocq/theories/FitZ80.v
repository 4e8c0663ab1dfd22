(** The Z80 handlers are well-behaved. *)
From Coq Require Import Lia.
From Verif Require Import Py PyFacts Utils Tokenizer State Assembler Instr Z80.
From Verif Require Import SpecUtils SpecExec SpecLink SpecCpu Events CpuFacts FitFacts Z80Enc.
Local Open Scope Z_scope.

(** An operand is bytes with at most one reference, to all of them, after those of base. *)
Definition after_ok (base b : bytes) (ds : list labeldata) : Prop :=
  Forall is_byte b /\ (ds = [] \/ exists d, ds = [d] /\ ld_offset d = zlen base /\ ld_size d <= zlen b).
Ltac after := split; [packed; eapply struct_pack_byte; eassumption|
  first [left; reflexivity
        | right; eexists; split; [reflexivity|]; split; [reflexivity|]; packed; out_len; lia]].
Lemma build_pure : forall h base t, pure (after_ok base) (z80_build h base t).
Proof.
  intros h base t. destruct h; cbn [z80_build].
  - eapply pure_bind; [apply pure_poil; sound|]. intros ? ? [-> | [-> ->]];
      (eapply pure_weaken; [apply pure_lift|]; intros ? ? [? ->]; rewrite ?app_nil_r; after).
  - eapply pure_bind; [apply pure_poil; sound|]. intros ? ? [-> | [-> ->]];
      (eapply pure_weaken; [apply pure_lift|]; intros ? ? [? ->]; rewrite ?app_nil_r; after).
  - apply pure_pc with (k := fun z => let! v := parse_integer_or_label z80_p (LabelData t 1 8 (z + zlen base + 1) (zlen base) 1 None None None) false in
      lift (pack_8s [Some v])). intros z.
    eapply pure_bind; [apply pure_poil; sound|]. intros ? ? [-> | [-> ->]];
      (eapply pure_weaken; [apply pure_lift|]; intros ? ? [? ->]; rewrite ?app_nil_r; after).
  - eapply pure_bind; [apply pure_poil; sound|]. intros ? ? [-> | [-> ->]];
      (eapply pure_weaken; [apply pure_lift|]; intros ? ? [? ->]; rewrite ?app_nil_r; after).
  - destruct (nth_error t 2) as [c|]; [|apply pure_praise].
    destruct (Ascii.eqb c "+"); [|destruct (Ascii.eqb c "-"); [|apply pure_praise]];
    (eapply pure_bind; [apply pure_poil; sound|]; intros ? ? [-> | [-> ->]];
      (eapply pure_weaken; [apply pure_lift|]; intros ? ? [? ->]; rewrite ?app_nil_r; after)).
Qed.
Lemma pack_byte_ok : forall k b, pack_byte [Some k] = Ok b -> Forall is_byte b.
Proof. intros k b H. unfold pack_byte, pack_u in H. eapply struct_pack_byte; eassumption. Qed.
Lemma base_ok : forall c b, z80_base c = Ok b -> Forall is_byte b.
Proof.
  intros c b H. unfold z80_base in H. destruct (c <=? 255); [eapply pack_byte_ok; eassumption|].
  destruct (pack_byte [Some (Z.shiftr c 8)]) as [x|] eqn:X; [|discriminate]. cbn [rbind] in H.
  destruct (pack_byte [Some (Z.land c 255)]) as [y|] eqn:Y; [|discriminate]. cbn [rbind] in H. injection H as <-.
  apply Forall_app. split; eapply pack_byte_ok; eassumption.
Qed.
Lemma suffix_ok : forall suf base b, Forall is_byte base -> z80_suffix base suf = Ok b -> Forall is_byte b /\ exists x, b = base ++ x.
Proof.
  induction suf as [|c suf IH]; intros base b B H; cbn [z80_suffix] in H.
  - injection H as <-. split; [exact B|]. exists []. rewrite app_nil_r. reflexivity.
  - destruct (pack_byte [Some c]) as [x|] eqn:X; [|discriminate]. cbn [rbind] in H.
    apply IH in H; [|apply Forall_app; split; [exact B|eapply pack_byte_ok; eassumption]].
    destruct H as [H (y & ->)]. split; [exact H|]. exists (x ++ y). rewrite <- app_assoc. reflexivity.
Qed.
Lemma call_ok : forall vs tokens, pure ok_out (z80_call vs tokens).
Proof.
  induction vs as [|[[code pats] hook] vs IH]; intros tokens; cbn [z80_call].
  { apply pure_ret. intros x E. discriminate. }
  destruct (match_ (tl tokens) pats); [|apply IH].
  destruct code as [|c suf]; [apply pure_praise|].
  eapply pure_bind; [apply pure_lift|]. intros base ? [B ->]. apply base_ok in B.
  eapply pure_bind with (Q := fun b ds => Forall is_byte b /\ (ds = [] \/ exists d, ds = [d] /\ 0 <= ld_offset d /\ ld_offset d + ld_size d <= zlen b)).
  - destruct hook as [[h i]|]; [|apply pure_ret; split; [exact B|left; reflexivity]].
    destruct (nth_error tokens (S i)) as [t|]; [|apply pure_praise].
    eapply pure_bind; [apply build_pure|]. intros b ds [B2 D]. apply pure_ret. split; [apply Forall_app; split; assumption|].
    rewrite app_nil_r. destruct D as [-> |(d & -> & O & S)]; [left; reflexivity|]. right. exists d. split; [reflexivity|].
    pose proof (zlen_nonneg base). rewrite zlen_app. lia.
  - intros b ds [B2 D]. eapply pure_bind; [apply pure_lift|]. intros out ? [S ->]. apply suffix_ok in S; [|exact B2]. destruct S as [S (x & ->)].
    apply pure_ret. intros y E. injection E as <-. split; [exact S|]. rewrite !app_nil_r. cbn [app].
    destruct D as [-> |(d & -> & O & Z)]; [apply placed_nil|]. apply placed_one; [lia|]. rewrite zlen_app. pose proof (zlen_nonneg x). lia.
Qed.
Lemma z80_all : forall k o, In (k, o) z80_ops -> exists vs, o = OFun (z80_call vs).
Proof. intros k o I. unfold z80_ops in I. rewrite in_map_iff in I. destruct I as ((n & vs) & E & _). injection E as _ <-. eauto. Qed.
Lemma z80_fits : forall e, fits (z80 e) /\ handlers neat (z80 e).
Proof.
  intros e. assert (H : handlers (fun f => forall tokens, pure ok_out (f tokens)) (z80 e)).
  { intros k f D. rewrite z80_instructions in D. apply (dget_In str_eqb str_eqb_eq) in D. apply z80_all in D. destruct D as [vs D].
    injection D as ->. apply call_ok. }
  split; [split; [|split]|].
  - intros k f D. apply pure_handler. eapply H; eauto.
  - intros k b D. rewrite z80_instructions in D. apply (dget_In str_eqb str_eqb_eq) in D. apply z80_all in D. destruct D as [vs D]. discriminate.
  - apply bare_mk.
  - intros k f D. apply pure_handler. eapply H; eauto.
Qed.
