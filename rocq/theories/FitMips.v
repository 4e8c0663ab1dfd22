(** The MIPS handlers are well-behaved. *)
From Coq Require Import Lia.
From Verif Require Import Py PyFacts Utils Tokenizer State Assembler Instr Mips32.
From Verif Require Import SpecUtils SpecExec SpecLink SpecCpu SpecMips UtilsFacts ParseFacts Events ExecFacts CpuFacts WordFacts FitFacts FitInstr MipsFacts.
Local Open Scope Z_scope.

Lemma build_pure : forall be fs, pure (builds 4) (build_opcode be fs).
Proof.
  intros be fs. unfold build_opcode. pure_step. pure_step. apply pure_ret. split; [reflexivity|].
  intros x E. injection E as <-. destruct be; packed; (split; [eapply struct_pack_byte; eassumption|out_len; reflexivity]).
Qed.
Lemma reg_quiet : quiet_fn (Some mips_reg).
Proof.
  intros t. unfold mips_reg. destruct (index_of (lower t) regs_base); [apply pure_ret; reflexivity|].
  destruct (index_of (lower t) regs_alias); [apply pure_ret; reflexivity|apply pure_praise].
Qed.
Lemma offset_quiet : forall be, quiet_fn (Some (mips_offset be)).
Proof. intros be t. unfold mips_offset. pure_step. pure_step; [apply pure_ret; reflexivity|apply pure_araise]. Qed.

Lemma poil_whole : forall p d sg, sound_ref d -> whole 4 d ->
  pure (fun _ ds => at_most (whole 4) ds) (parse_integer_or_label p d sg).
Proof.
  intros p d sg S W. eapply pure_weaken; [apply at_most_poil; exact S|].
  intros v ds [->|(d' & -> & ->)]; [left; reflexivity|right; exists d; split; [reflexivity|exact W]].
Qed.
Ltac whole4 := apply poil_whole; [sound; intros ? E; injection E as <-; cbn; lia|split; reflexivity].
Ltac whole4_shift := eapply pure_bind; [whole4|]; intros ? ? O; apply pure_ret; rewrite app_nil_r; exact O.

Lemma signed_one : forall be, one_fn (whole 4) (immediate_signed be).
Proof. intros be t. unfold immediate_signed. whole4. Qed.
Lemma unsigned_one : forall be, one_fn (whole 4) (immediate_unsigned be).
Proof. intros be t. unfold immediate_unsigned. whole4. Qed.
Lemma aaaaa_one : forall be, one_fn (whole 4) (aaaaa be).
Proof. intros be t. unfold aaaaa. whole4. Qed.
Lemma abs_one : forall be, one_fn (whole 4) (abs_label be).
Proof. intros be t. unfold abs_label. whole4_shift. Qed.
Lemma imm32_one : forall be h, one_fn (whole 4) (immediate32 be h).
Proof. intros be [] t; unfold immediate32; whole4_shift. Qed.
Lemma rel_one : forall be, one_fn (whole 4) (rel_label be).
Proof.
  intros be t. unfold rel_label.
  apply pure_pc with (k := fun z =>
    let! v := parse_integer_or_label (mips_cfg be)
      (LabelData t 4 18 (z + 4) 0 1 (Some (15, 0)) (Some (fun x => Z.shiftr x 2)) None) false in
    ret (Z.shiftr v 2)).
  intros z. whole4_shift.
Qed.

Ltac regs_only := apply pure_at_most; unfold iapply; apply pure_apply; repeat (constructor; [first [exact reg_quiet | apply offset_quiet | exact I]|]); constructor.
Ltac last_one pre g L := unfold iapply; apply (pure_apply_one _ (whole 4) pre g []);
  [repeat (constructor; [exact reg_quiet|]); constructor | apply L | constructor].
Ltac body := intros ?; repeat first [apply build_pure | apply pure_praise
  | match goal with |- pure _ (match ?x with _ => _ end) => destruct x end].
Ltac nothing := apply pure_ret; intros ? E; discriminate.

Lemma mips_ok : forall be k tokens, pure ok_out (mips_run be k tokens).
Proof.
  intros be k tokens. destruct k; cbn [mips_run].
  - unfold arith_log. pure_step; [|nothing]. apply pure_word with (n := 4); [regs_only|body].
  - unfold arith_log_i. pure_step; [|nothing]. apply pure_word with (n := 4); [|body].
    destruct signed.
    + last_one [Some mips_reg; Some mips_reg] (immediate_signed be) signed_one.
    + last_one [Some mips_reg; Some mips_reg] (immediate_unsigned be) unsigned_one.
  - unfold mips_shift. pure_step; [|nothing]. apply pure_word with (n := 4); [|body].
    last_one [Some mips_reg; Some mips_reg] (aaaaa be) aaaaa_one.
  - unfold shift_v. pure_step; [|nothing]. apply pure_word with (n := 4); [regs_only|body].
  - unfold load_i. pure_step; [|nothing]. apply pure_word with (n := 4); [|body].
    last_one [Some mips_reg] (immediate32 be high) imm32_one.
  - unfold mips_branch. pure_step; [|nothing]. apply pure_word with (n := 4); [|body].
    last_one [Some mips_reg; Some mips_reg] (rel_label be) rel_one.
  - unfold branch_z. pure_step; [|nothing]. apply pure_word with (n := 4); [|body].
    last_one [Some mips_reg] (rel_label be) rel_one.
  - unfold mips_jump. pure_step; [|nothing]. apply pure_word with (n := 4); [|body].
    last_one (@nil (option (str -> M Z))) (abs_label be) abs_one.
  - unfold jump_r. pure_step; [|nothing]. apply pure_word with (n := 4); [regs_only|body].
  - unfold load_store. pure_step; [|nothing]. apply pure_word with (n := 4); [regs_only|body].
  - unfold move_from. pure_step; [|nothing]. apply pure_word with (n := 4); [regs_only|body].
  - unfold move_to. pure_step; [|nothing]. apply pure_word with (n := 4); [regs_only|body].
  - unfold no_args. pure_step; [|nothing]. eapply pure_weaken; [apply build_pure|].
    intros b ds [-> B] x E. destruct (B x E) as [B1 B2]. split; [exact B1|apply placed_nil].
  - apply pure_praise.
Qed.

Lemma mips_handler : forall be e k f, dget str_eqb (c_instructions (mips32 be e)) k = Some f ->
  exists c, f = OFun (mips_run be c).
Proof.
  intros be e k f D. unfold mips32, mk_cfg in D. cbn [c_instructions] in D.
  rewrite register_all_upper in D; [|reflexivity|vm_compute; reflexivity].
  apply (dget_In str_eqb str_eqb_eq) in D. apply in_map_iff in D. destruct D as ([n o] & E & D).
  injection E as <- <-. apply in_map_iff in D. destruct D as ([n' c] & E & D). injection E as <- <-. eauto.
Qed.
Lemma mips_fits : forall be e, fits (mips32 be e) /\ handlers neat (mips32 be e).
Proof.
  intros be e. split; [split; [|split]|].
  - intros k f D. apply mips_handler in D. destruct D as (c & E). injection E as ->. apply pure_handler. apply mips_ok.
  - intros k b D. apply mips_handler in D. destruct D as (c & E). discriminate.
  - apply bare_mk.
  - intros k f D. apply mips_handler in D. destruct D as (c & E). injection E as ->. apply pure_handler. apply mips_ok.
Qed.
