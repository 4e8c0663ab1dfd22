(** What the processors and consoles add does not change when more labels are known; not for the
    6502, which looks up labels while it assembles. *)
From Verif Require Import Py PyFacts Utils Tokenizer State Assembler Instr Mc68000 Mips32 Lr35902 Z80 Thumb Ppc I8086 X86 Platform.
From Verif Require Import CartFacts SpecCalm CalmFacts.
Local Open Scope Z_scope.

Lemma cat_seen : forall p t n sg s L, cat s L (lift (parse_integer p (labels s) t n sg)) (lift (parse_integer p L t n sg)).
Proof.
  intros p t n sg s L K s' a E. unfold lift in *. injection E as <- E. split; [reflexivity|].
  rewrite (parse_more _ _ _ _ _ _ _ K E). reflexivity.
Qed.
Lemma cat_operands : forall A (fs : list (option (str -> M A))) l s L,
  (forall f t s, In (Some f) fs -> cat s L (f t) (f t)) -> cat s L (apply_operands l fs) (apply_operands l fs).
Proof.
  intros A fs. induction fs as [|[f|] fs IH]; intros l s L H; cbn [apply_operands]; [apply cat_ret| |].
  - destruct l as [|t l]; [apply cat_praise|]. apply cat_bind; [apply H; left; reflexivity|]. intros u v.
    apply cat_bind; [apply IH; intros; apply H; right; assumption|]. intros. apply cat_ret.
  - apply IH. intros. apply H. right. assumption.
Qed.
Ltac hstep := lazymatch goal with
  | |- cat _ _ (parse_integer_or_label _ _ _) _ => apply cat_poil
  | |- cat _ _ (lift (parse_integer _ (labels _) _ _ _)) _ => apply cat_seen
  | |- _ => cstep
  end.
Ltac hgo := repeat hstep.
Ltac operands := unfold iapply; apply cat_operands; let I := fresh in intros ? ? ? I; cbn [In map] in I;
  repeat destruct I as [I|I]; try contradiction; try discriminate; injection I as <-.

(** ** MIPS *)
Lemma cat_mips_build : forall be fs s L, cat s L (Mips32.build_opcode be fs) (Mips32.build_opcode be fs).
Proof. intros. unfold Mips32.build_opcode. hgo. Qed.
Ltac mips := unfold mips_reg, immediate_signed, immediate_unsigned, mips_offset, abs_label, rel_label, immediate32, aaaaa; hgo.
Lemma cat_mips : forall be k t s L, cat s L (mips_run be k t) (mips_run be k t).
Proof.
  intros be k t s L. destruct k as [|? []| | | | | | | | | | | |]; cbn [mips_run];
    unfold arith_log, arith_log_i, mips_shift, shift_v, load_i, mips_branch, branch_z, mips_jump, jump_r, load_store, move_from, move_to, no_args, swapped;
    repeat first [apply cat_mips_build | match goal with |- cat _ _ (iapply _ _) _ => operands; mips end | hstep].
Qed.

(** ** Thumb *)
Lemma cat_low : forall t s L, cat s L (low_reg t) (low_reg t).
Proof. intros. unfold low_reg. hgo. Qed.
Lemma cat_rlist : forall l r s L, cat s L (th_rlist l r) (th_rlist l r).
Proof.
  induction l as [|x l IH]; intros r s L; cbn [th_rlist]; repeat first [apply IH | apply cat_low | hstep].
Qed.
Lemma cat_thumb_row : forall t r s L, cat s L (run_row t r) (run_row t r).
Proof.
  intros t r s L. unfold run_row. apply cat_bind; [|intros; unfold th_build; hgo].
  unfold iapply. apply cat_operands. intros f x u I. apply in_map_iff in I. destruct I as (o & E & _).
  destruct o; cbn [op_value] in E; try discriminate; injection E as <-; unfold th_imm, th_word8, th_offset, high_reg; try apply cat_low; hgo.
Qed.
Lemma cat_thumb : forall k f t s L, In (k, OFun f) thumb_ops -> cat s L (f t) (f t).
Proof.
  intros k f t s L I. unfold thumb_ops in I. apply in_app_iff in I. destruct I as [I|[I|[I|[]]]].
  - apply in_map_iff in I. destruct I as ([n rs] & E & _). injection E as <- <-.
    induction rs as [|r rs IH]; cbn [run_rows]; [apply cat_ret|]. destruct (imatch _ _ _); [apply cat_thumb_row|exact IH].
  - injection I as <- <-. unfold thumb_bl. hgo.
  - injection I as <- <-. unfold thumb_push. cbv zeta. hgo; try apply cat_rlist. all: unfold th_build; hgo.
Qed.

(** ** LR35902 *)
Lemma cat_lr_except : forall A (m : M A) s L, cat s L m m -> cat s L (lr_except_key_error m) (lr_except_key_error m).
Proof.
  intros A m s L H K s' a E. unfold lr_except_key_error in *. destruct (m s) as [u [b|[x|x]]] eqn:F; try discriminate.
  - injection E as <- <-. destruct (H K _ _ F) as [E1 E2]. rewrite E2. split; [exact E1|reflexivity].
  - destruct x; discriminate.
Qed.
Lemma cat_lr_operand : forall o t s L, cat s L (lr_operand o t) (lr_operand o t).
Proof. intros [] t s L; unfold lr_operand; hgo. Qed.
Lemma cat_lr_build : forall pre bs kw t s L, cat s L (Lr35902.build pre bs kw t) (Lr35902.build pre bs kw t).
Proof. intros. unfold Lr35902.build. apply cat_lr_except. unfold lr_kwarg. repeat first [apply cat_lr_operand | hstep]. Qed.
Lemma cat_lr : forall k f t s L, In (k, OFun f) lr_ops -> cat s L (f t) (f t).
Proof.
  intros k f t s L I. unfold lr_ops in I. rewrite !in_app_iff in I. destruct I as [I|[I|[I|I]]].
  - apply in_map_iff in I. destruct I as ((m & n) & E & I). discriminate.
  - apply in_map_iff in I. destruct I as ((m & ((c & r) & n)) & E & I). injection E as <- <-. apply cat_lr_build.
  - apply in_map_iff in I. destruct I as ((m & n) & E & I). injection E as <- <-. apply cat_lr_build.
  - destruct I as [I|[I|[I|[I|[I|[]]]]]]; injection I as <- <-; unfold lr_ldh_op, lr_ld, lr_ret, lr_stop, lr_rst, lr_kwarg;
      repeat first [apply cat_lr_build | apply cat_lr_operand | hstep].
Qed.

(** ** Z80 *)
Lemma cat_z80 : forall vs t s L, cat s L (z80_call vs t) (z80_call vs t).
Proof.
  induction vs as [|[[code pats] hook] vs IH]; intros t s L; cbn [z80_call]; repeat first [apply IH | hstep].
  all: unfold z80_build; hgo.
Qed.

(** ** PowerPC *)
Lemma cat_kind : forall k t b s L, cat s L (kind_eval k t b) (kind_eval k t b).
Proof. intros k t b s L. destruct k; cbn [kind_eval]; unfold reg_number, ppc_value; hgo. Qed.
Lemma cat_ppc_fields : forall c l s L, cat s L (ppc_fields c l) (ppc_fields c l).
Proof.
  induction c as [|i c IH]; intros l s L; cbn [ppc_fields]; [apply cat_ret|]. destruct l as [|t l]; [apply cat_praise|].
  repeat first [apply IH | apply cat_kind | hstep].
Qed.
Lemma cat_ppc : forall b cs t s L, cat s L (ppc_call b cs t) (ppc_call b cs t).
Proof.
  intros b cs t. induction cs as [|[c|] cs IH]; intros s L; cbn [ppc_call]; [apply cat_ret| |];
    repeat first [apply IH | apply cat_ppc_fields | hstep].
Qed.

(** ** 68000 *)
Ltac mc := repeat first [apply cat_poil | hstep].
Lemma cat_packer : forall t n o s L, cat s L (mc_packer t n o) (mc_packer t n o).
Proof. intros. unfold mc_packer. mc. Qed.
Lemma cat_body : forall sh t i o n s L, cat s L (mc_body sh t i o n) (mc_body sh t i o n).
Proof. intros [] t j o n s L; cbn [mc_body]; unfold mc_abs_w, mc_abs_l, mc_ext; repeat first [lazymatch goal with |- cat _ _ (mc_packer _ _ _) _ => apply cat_packer end | hstep]. Qed.
Lemma cat_mode : forall t i o n bl s L, cat s L (mc_mode t i o n bl) (mc_mode t i o n bl).
Proof. intros. unfold mc_mode. repeat first [lazymatch goal with |- cat _ _ (mc_body _ _ _ _ _) _ => apply cat_body end | hstep]. Qed.
Lemma cat_mc : forall k t s L, cat s L (mc_run k t) (mc_run k t).
Proof.
  intros [] t s L; cbn [mc_run]; unfold mc_move, mc_movea, mc_immediate, mc_jump, mc_lea, mc_bcc, mc_dbcc, mc_to_address, mc_build;
    repeat first [lazymatch goal with |- cat _ _ (mc_mode _ _ _ _ _) _ => apply cat_mode end | lazymatch goal with |- cat _ _ (mc_packer _ _ _) _ => apply cat_packer end | hstep].
Qed.

(** ** 8086 *)
Lemma cat_key : forall v s L, cat s L (key v) (key v).
Proof. intros. unfold key. hgo. Qed.
Lemma cat_modrm : forall m s L, cat s L (build_modrm m) (build_modrm m).
Proof. intros. unfold build_modrm. repeat first [lazymatch goal with |- cat _ _ (key _) _ => apply cat_key end | hstep]. Qed.
Lemma cat_if_reg : forall m s L, cat s L (build_if_reg m) (build_if_reg m).
Proof. intros. unfold build_if_reg. repeat first [lazymatch goal with |- cat _ _ (build_modrm _) _ => apply cat_modrm end | hstep]. Qed.
Lemma cat_memory : forall t i m s L, cat s L (arg_memory t i m) (arg_memory t i m).
Proof. intros. unfold arg_memory. repeat first [lazymatch goal with |- cat _ _ (build_if_reg _) _ => apply cat_if_reg end | hstep]. Qed.
Lemma cat_rm : forall r t i m s L, cat s L (arg_rm r t i m) (arg_rm r t i m).
Proof. intros. unfold arg_rm. repeat first [lazymatch goal with |- cat _ _ (build_if_reg _) _ => apply cat_if_reg end | lazymatch goal with |- cat _ _ (arg_memory _ _ _) _ => apply cat_memory end | hstep]. Qed.
Lemma cat_reg : forall r t i m s L, cat s L (arg_reg r t i m) (arg_reg r t i m).
Proof. intros. unfold arg_reg. repeat first [lazymatch goal with |- cat _ _ (build_modrm _) _ => apply cat_modrm end | hstep]. Qed.
Lemma cat_direct : forall t i s L, cat s L (direct t i) (direct t i).
Proof. intros. unfold direct. hgo. Qed.
Lemma cat_arg : forall a t i m s L, cat s L (I8086.run_arg a t i m) (I8086.run_arg a t i m).
Proof.
  intros a t i m s L. destruct a; cbn [I8086.run_arg];
    repeat first [lazymatch goal with |- cat _ _ (arg_rm _ _ _ _) _ => apply cat_rm end | lazymatch goal with |- cat _ _ (arg_reg _ _ _ _) _ => apply cat_reg end | lazymatch goal with |- cat _ _ (arg_memory _ _ _) _ => apply cat_memory end | lazymatch goal with |- cat _ _ (build_modrm _) _ => apply cat_modrm end | lazymatch goal with |- cat _ _ (direct _ _) _ => apply cat_direct end | hstep].
Qed.
Lemma cat_args : forall l t i m b s L, cat s L (run_args l t i m b) (run_args l t i m b).
Proof. induction l as [|a l IH]; intros t i m b s L; cbn [run_args]; repeat first [apply IH | lazymatch goal with |- cat _ _ (I8086.run_arg _ _ _ _) _ => apply cat_arg end | hstep]. Qed.
Lemma cat_i86 : forall vs t s L, cat s L (i86_call vs t) (i86_call vs t).
Proof. induction vs as [|[b l] vs IH]; intros t s L; cbn [i86_call]; repeat first [apply IH | lazymatch goal with |- cat _ _ (run_args _ _ _ _ _) _ => apply cat_args end | hstep]. Qed.

(** ** x86 *)
Lemma cat_xkey : forall v s L, cat s L (xkey v) (xkey v).
Proof. intros. unfold xkey. hgo. Qed.
Lemma cat_xmodrm : forall b m s L, cat s L (x_modrm b m) (x_modrm b m).
Proof. intros. unfold x_modrm. repeat first [lazymatch goal with |- cat _ _ (xkey _) _ => apply cat_xkey end | hstep]. Qed.
Lemma cat_xif_reg : forall b m s L, cat s L (x_build_if_reg b m) (x_build_if_reg b m).
Proof. intros. unfold x_build_if_reg. repeat first [lazymatch goal with |- cat _ _ (x_modrm _ _) _ => apply cat_xmodrm end | hstep]. Qed.
Lemma cat_xmemory : forall t b i m s L, cat s L (x_memory t b i m) (x_memory t b i m).
Proof. intros. unfold x_memory. repeat first [lazymatch goal with |- cat _ _ (x_build_if_reg _ _) _ => apply cat_xif_reg end | hstep]. Qed.
Lemma cat_ximm : forall t n b pk m s L, cat s L (x_imm t n b pk m) (x_imm t n b pk m).
Proof. intros. unfold x_imm. hgo. Qed.
Lemma cat_xarg : forall a t b i m s L, cat s L (x_run_arg a t b i m) (x_run_arg a t b i m).
Proof.
  intros a t b i m s L. destruct a; cbn [x_run_arg];
    repeat first [lazymatch goal with |- cat _ _ (x_build_if_reg _ _) _ => apply cat_xif_reg end | lazymatch goal with |- cat _ _ (x_modrm _ _) _ => apply cat_xmodrm end | lazymatch goal with |- cat _ _ (x_memory _ _ _ _) _ => apply cat_xmemory end | lazymatch goal with |- cat _ _ (x_imm _ _ _ _ _) _ => apply cat_ximm end | hstep].
Qed.
Lemma cat_xargs : forall l t b i m o s L, cat s L (x_run_args l t b i m o) (x_run_args l t b i m o).
Proof. induction l as [|a l IH]; intros t b i m o s L; cbn [x_run_args]; repeat first [apply IH | lazymatch goal with |- cat _ _ (x_run_arg _ _ _ _ _) _ => apply cat_xarg end | hstep]. Qed.
Lemma cat_xconditions : forall rep t vs s L, (forall s, cat s L rep rep) -> cat s L (x_conditions rep t vs) (x_conditions rep t vs).
Proof.
  intros rep t vs. induction vs as [|[b [|a l]] vs IH]; intros s L H; cbn [x_conditions];
    repeat first [apply H | apply IH; exact H | lazymatch goal with |- cat _ _ (x_run_args _ _ _ _ _ _) _ => apply cat_xargs end | hstep].
Qed.
Lemma cat_x86 : forall t vs s L, cat s L (x86_call vs t) (x86_call vs t).
Proof.
  induction t as [|t0 t IH]; intros vs s L; cbn [x86_call]; apply cat_xconditions; intros u.
  - apply cat_praise.
  - destruct t as [|t1 t]; [apply cat_praise|]. destruct (dget _ _ _); [apply IH|apply cat_praise].
Qed.
Lemma cat_bits : forall t s L, cat s L (x86_directive_bits t) (x86_directive_bits t).
Proof. intros. unfold x86_directive_bits. hgo. Qed.

(** ** Consoles *)
Lemma cat_fill : forall p a n t s L, cat s L (cartridge_fill p a n t) (cartridge_fill p a n t).
Proof.
  intros p a n t s L. unfold cartridge_fill. apply cat_get. cbn [cartridge_set set_labels]. destruct (negb _); [apply cat_araise|].
  destruct (Nat.ltb _ _); [apply cat_araise|]. apply cat_bind.
  - intros K s' b E. pose proof (cat_bytes_or_ascii p (skipn 1 t) [] s L K) as H.
    destruct (parse_bytes_or_ascii p (skipn 1 t) [] s) as [u [v|[x|x]]] eqn:F; try discriminate.
    + injection E as <- <-. destruct (H _ _ eq_refl) as [E1 E2]. rewrite E2. split; [exact E1|reflexivity].
    + destruct x; discriminate.
  - intros u v. destruct (n <? zlen v); [apply cat_araise|]. intros K s' b E. cbn [assembled set_labels].
    destruct (write_bytes a v (assembled u)) as [o e]. destruct e; [discriminate|]. injection E as <- <-. split; reflexivity.
Qed.
Lemma cat_gb_cartridge : forall t s L, cat s L (gb_cartridge t) (gb_cartridge t).
Proof. intros. unfold gb_cartridge. repeat first [apply cat_change_org | hstep]. Qed.
Lemma cat_nes_cartridge : forall t s L, cat s L (nes_cartridge t) (nes_cartridge t).
Proof. intros. unfold nes_cartridge. hgo. Qed.
Lemma cat_tiles : forall e ok conv t s L, cat s L (directive_tiles e ok conv t) (directive_tiles e ok conv t).
Proof. intros. unfold directive_tiles. hgo. Qed.
Lemma cat_gb_fix : forall s L, cat s L gb_fix gb_fix.
Proof. intros. unfold gb_fix. hgo. Qed.

(** ** All of them *)
Lemma calm_mk : forall p e ops dirs pre post,
  (forall f, In (OFun f) (map snd ops) -> forall t s L, cat s L (f t) (f t)) ->
  (forall f, In (D_custom f) (map snd dirs) -> forall t s L, cat s L (f t) (f t)) ->
  (forall m, In m (pre ++ post) -> forall s L, cat s L m m) ->
  calm_plugins (mk_cfg p e ops dirs pre post).
Proof.
  intros p e ops dirs pre post H1 H2 H3. split; [|split].
  - intros k f t D. apply cat_calm. intros. unfold mk_cfg in D. cbn [c_instructions] in D. apply registered in D.
    destruct D as [D|D]; [discriminate|]. apply H1. exact D.
  - intros k f t D. apply cat_calm. intros. apply custom_in in D. apply H2. exact D.
  - intros m I. apply cat_calm. intros. apply H3. exact I.
Qed.
Lemma rows : forall V (g : V -> list str -> M (option bytes)) (l : list (str * V)) f,
  In (OFun f) (map snd (map (fun '(n, v) => (n, OFun (g v))) l)) -> exists v, f = g v.
Proof.
  intros V g l f. induction l as [|[n v] l IH]; intros I; [destruct I|]. cbn [map snd In] in I.
  destruct I as [I|I]; [injection I as <-; eauto|auto].
Qed.
Lemma lr_handlers : forall f, In (OFun f) (map snd lr_ops) -> forall t s L, cat s L (f t) (f t).
Proof. intros f I t s L. apply in_map_iff in I. destruct I as ([k o] & E & I). cbn [snd] in E. subst. eapply cat_lr; eauto. Qed.
Lemma z80_handlers : forall f, In (OFun f) (map snd z80_ops) -> forall t s L, cat s L (f t) (f t).
Proof.
  intros f I t s L. unfold z80_ops in I. destruct (rows _ z80_call _ _ I) as [vs ->]. apply cat_z80.
Qed.
Lemma lr35902_calm : forall e, calm_plugins (lr35902 e).
Proof. intros e. apply calm_mk; [apply lr_handlers|intros ? []|intros ? []]. Qed.
Lemma z80_calm : forall e, calm_plugins (z80 e).
Proof. intros e. apply calm_mk; [apply z80_handlers|intros ? []|intros ? []]. Qed.
Lemma thumb_calm : forall e, calm_plugins (thumb e).
Proof.
  intros e. apply calm_mk; [|intros ? []|intros ? []]. intros f I t s L. apply in_map_iff in I. destruct I as ([k o] & E & I).
  cbn [snd] in E. subst. eapply cat_thumb; eauto.
Qed.
Lemma mips32_calm : forall be e, calm_plugins (mips32 be e).
Proof.
  intros be e. apply calm_mk; [|intros ? []|intros ? []]. intros f I t s L. rewrite map_map in I. apply in_map_iff in I.
  destruct I as ([k o] & E & I). injection E as <-. apply cat_mips.
Qed.
Lemma mc68000_calm : forall e, calm_plugins (mc68000 e).
Proof.
  intros e. apply calm_mk; [|intros ? []|intros ? []]. intros f I t s L. rewrite map_map in I. apply in_map_iff in I.
  destruct I as ([k [o|]] & E & I); [|discriminate]. injection E as <-. apply cat_mc.
Qed.
Lemma powerpc_calm : forall e, calm_plugins (powerpc e).
Proof.
  intros e. apply calm_mk; [|intros ? []|intros ? []]. intros f I t s L. unfold ppc_ops in I. revert I. generalize ppc_opcodes. intros l.
  induction l as [|[n [b cs]] l IH]; intros I; [destruct I|]. cbn [map snd In] in I.
  destruct I as [I|I]; [injection I as <-; apply cat_ppc|auto].
Qed.
Lemma i8086_calm : forall e, calm_plugins (i8086 e).
Proof.
  intros e. apply calm_mk; [|intros ? []|intros ? []]. intros f I t s L. unfold i86_ops in I. destruct (rows _ i86_call _ _ I) as [vs ->]. apply cat_i86.
Qed.
Lemma x86_calm : forall e, calm_plugins (x86 e).
Proof.
  intros e. apply calm_mk; [| |intros ? []].
  - intros f I t s L. unfold x86_ops in I. destruct (rows _ x86_call _ _ I) as [vs ->]. apply cat_x86.
  - intros f [I|[]] t s L. injection I as <-. apply cat_bits.
Qed.
Lemma gameboy_calm : forall e, calm_plugins (gameboy e).
Proof.
  intros e. apply calm_mk; [apply lr_handlers| |].
  - intros f I t s L. cbn [gb_directives map snd In] in I. repeat destruct I as [I|I]; try contradiction; injection I as <-;
      first [lazymatch goal with |- cat _ _ (cartridge_fill _ _ _ _) _ => apply cat_fill end | lazymatch goal with |- cat _ _ (gb_cartridge _) _ => apply cat_gb_cartridge end | apply cat_tiles].
  - intros m [<-|[]]. apply cat_gb_fix.
Qed.
Lemma sms_calm : forall e, calm_plugins (sms e).
Proof.
  intros e. apply calm_mk; [apply z80_handlers| |intros ? []].
  intros f [I|[]] t s L. injection I as <-. apply cat_tiles.
Qed.
