(** Properties C42, C43 and C51: Thumb instructions, calls, branches and PC-relative loads. *)
From Coq Require Import Lia.
From Verif Require Import Reach.
From Verif Require Import Py PyFacts Utils Tokenizer State Assembler SpecUtils SpecParse SpecExec SpecLink
  UtilsFacts SpecCpu SpecPlace Instr Thumb SpecThumb CpuFacts WordFacts ThumbFacts FitThumb LabelMono Demo PropsPlace WordLink
  PropsMosLink PropsFit FitFacts.
Local Open Scope Z_scope.

(** ** C42 *)

Lemma thumb_key : forall e t, op_key (thumb e) t = upper t.
Proof. reflexivity. Qed.

(** Apart from the deviating and refused forms, an instruction assembles exactly when it
    has one of the forms of the manual, and then to the half word of the manual. *)
Theorem C42_encoding : forall e fuel words l s s' t0 ops,
  opcode_stmt (thumb e) s words t0 ops -> upper t0 <> #"BL" -> upper t0 <> #"PUSH" ->
  0 <= pc s -> regular s (upper t0) ops ->
  exec (thumb e) fuel [Stmt KInstruction words l] s = (s', Ok tt) <->
  exists base ks w ds, In (upper t0, (base, ks)) manual /\ encodes s ks ops w ds /\
    emitted (referring s ds) (half_bytes (base + w)) s'.
Proof.
  intros e fuel words l s s' t0 ops OS NB NP PC RG. rewrite (exec_opcode _ _ _ _ _ fuel l OS). rewrite thumb_key.
  destruct (dget str_eqb thumb_rows (upper t0)) as [rs|] eqn:D.
  - rewrite (fun_result _ _ _ (run_rows rs)) by (rewrite thumb_lookup, D; reflexivity).
    split.
    + intros (b & E & EM). destruct (run_rows rs (t0 :: ops) s) as [s1 r] eqn:X. cbn [fst snd] in *. subst r.
      destruct (proj1 (rows_result _ _ t0 ops s s1 b D PC RG) X) as (base & ks & w & ds & I & EN & -> & ->).
      exists base, ks, w, ds. split; [exact I|]. split; [exact EN|exact EM].
    + intros (base & ks & w & ds & I & EN & EM). exists (half_bytes (base + w)).
      assert (X : run_rows rs (t0 :: ops) s = (referring s ds, Ok (Some (half_bytes (base + w))))).
      { apply (rows_result _ _ t0 ops s _ _ D PC RG). exists base, ks, w, ds. auto. }
      rewrite X. split; [reflexivity|exact EM].
  - rewrite unknown_result.
    + split; [tauto|]. intros (base & ks & w & ds & I & _). destruct (manual_rows _ _ _ I) as (rs & E). congruence.
    + rewrite thumb_lookup, D. cbn [dget]. destruct (str_eqb (upper t0) #"BL") eqn:E1; [apply str_eqb_eq in E1; congruence|].
      destruct (str_eqb (upper t0) #"PUSH") eqn:E2; [apply str_eqb_eq in E2; congruence|reflexivity].
Qed.
Print Assumptions C42_encoding.

(** Some documented forms are always rejected. *)
Theorem C42_refused_refuted : forall e words s t0 ops ks, opcode_stmt (thumb e) s words t0 ops ->
  In (upper t0, ks) refused -> Forall2 looks ks ops -> rejected (thumb e) s words.
Proof.
  intros e words s t0 ops ks OS I L fuel l. rewrite (exec_opcode _ _ _ _ _ fuel l OS). rewrite thumb_key.
  destruct (rows_refused _ _ t0 ops s I L) as (rs & D & N).
  rewrite (opcode_fun _ _ _ (run_rows rs)) by (rewrite thumb_lookup, D; reflexivity).
  destruct (run_rows rs (t0 :: ops) s) as [s1 [[b|]|[x|x]]]; try (eexists; reflexivity). exfalso. exact (N s1 b eq_refl).
Qed.
Print Assumptions C42_refused_refuted.

(** Register lists. *)
Lemma push_shape : forall t0 ops s s1 b, thumb_push (t0 :: ops) s = (s1, Ok (Some b)) <->
  s1 = s /\ exists body lr mask, list_mask body mask /\
    ((lr = 0 /\ body <> [] /\ ops = #"{" :: body ++ [#"}"] /\ lower (last body []) <> #"lr") \/
     (exists x, lr = 1 /\ ops = #"{" :: body ++ [x; #"}"] /\ lower x = #"lr")) /\
    b = half_bytes (0xB400 + lr * 0x800 + mask).
Proof.
  intros t0 ops s s1 b.
  assert (BI : forall lr mask s0 s2 b0, 0 <= lr <= 1 -> 0 <= mask < 256 ->
    th_build 0xB400 [((11, 11), lr); ((7, 0), mask)] s0 = (s2, Ok (Some b0)) <-> s2 = s0 /\ b0 = half_bytes (0xB400 + lr * 0x800 + mask)).
  { intros lr mask s0 s2 b0 L M. unfold th_build, bind, lift, pack_bits_le16u. cbn [pack_bits].
    assert (E1 : pack_bits_step 46080 (11, 11, lr) = Ok (46080 + lr * 0x800)).
    { assert (X : lr = 0 \/ lr = 1) by lia. destruct X as [-> | ->]; vm_compute; reflexivity. }
    rewrite E1. cbn [rbind].
    rewrite (step_add (46080 + lr * 0x800) 7 0 mask); [|lia|exists (180 + lr * 8); change (2 ^ (7 + 1)) with 256; lia
      |change (2 ^ (7 - 0)) with 128; change (2 ^ (7 - 0 + 1)) with 256; lia].
    change (2 ^ (7 - 0 + 1)) with 256. rewrite (Z.mod_small mask) by lia. change (2 ^ 0) with 1. rewrite Z.mul_1_r. cbn [rbind].
    assert (R : 0 <= 46080 + lr * 0x800 + mask < 2 ^ 16) by (change (2 ^ 16) with 65536; lia).
    unfold pack_le16u. rewrite (pack_one false); [|reflexivity|reflexivity|exact R].
    rewrite half_bytes_eq by (change (2 ^ 16) with 65536; lia). split; [intros H; injection H as <- <-; auto|intros [-> ->]; reflexivity]. }
  assert (EQ : forall (tokens : list str) (lr : bool) (body : list str), Nat.ltb (length tokens) 4 = false -> str_eqb (nth 1 tokens []) #"{" = true ->
     str_eqb (last tokens []) #"}" = true -> str_eqb (lower (nth (length tokens - 2) tokens [])) #"lr" = lr ->
     firstn (length tokens - 2 - (if lr then 2 else 1)) (skipn 2 tokens) = body ->
     thumb_push tokens = (let! rlist := th_rlist body 0 in th_build 0xB400 [((11, 11), if lr then 1 else 0); ((7, 0), rlist)])).
  { intros tokens lr body H1 H2 H3 H4 H5. unfold thumb_push. rewrite H1, H2, H3, H4. cbn [negb orb]. cbv zeta. rewrite H5. reflexivity. }
  assert (RUN : forall (body : list str) (lr : bool) s0 s2 b0, bind (th_rlist body 0) (fun rlist => th_build 0xB400 [((11, 11), if lr then 1 else 0); ((7, 0), rlist)]) s0 = (s2, Ok (Some b0)) <->
     s2 = s0 /\ exists mask, list_mask body mask /\ b0 = half_bytes (0xB400 + (if lr then 1 else 0) * 0x800 + mask)).
  { intros body lr s0 s2 b0. unfold bind. split.
    - destruct (th_rlist body 0 s0) as [s3 [mask|x]] eqn:E; [|discriminate]. apply rlist_mask in E. destruct E as [-> M].
      intros H. apply BI in H; [|destruct lr; lia|eapply mask_range; exact M]. destruct H as [-> ->]. eauto.
    - intros (-> & mask & M & ->). assert (E : th_rlist body 0 s0 = (s0, Ok mask)) by (apply rlist_mask; auto). rewrite E.
      apply BI; [destruct lr; lia|eapply mask_range; exact M|auto]. }
  assert (SH : forall (mid : list str) (x : str), length (t0 :: #"{" :: mid ++ [x]) = (3 + length mid)%nat).
  { intros mid x. cbn [length]. rewrite app_length. cbn [length]. lia. }
  assert (LA : forall (mid : list str) (x : str), last (t0 :: #"{" :: mid ++ [x]) [] = x).
  { intros mid x. change (t0 :: #"{" :: mid ++ [x]) with ((t0 :: #"{" :: mid) ++ [x]). apply last_last. }
  (* the list is t0 { mid y } *)
  assert (MAIN : forall (mid : list str) (y : str), thumb_push (t0 :: #"{" :: (mid ++ [y]) ++ [#"}"]) s = (s1, Ok (Some b)) <->
     s1 = s /\ if str_eqb (lower y) #"lr"
       then exists mask, list_mask mid mask /\ b = half_bytes (0xB400 + 1 * 0x800 + mask)
       else exists mask, list_mask (mid ++ [y]) mask /\ b = half_bytes (0xB400 + 0 * 0x800 + mask)).
  { intros mid y.
    assert (N2 : nth (length (t0 :: #"{" :: (mid ++ [y]) ++ [#"}"]) - 2) (t0 :: #"{" :: (mid ++ [y]) ++ [#"}"]) [] = y).
    { rewrite SH, app_length. cbn [length]. replace (3 + (length mid + 1) - 2)%nat with (2 + length mid)%nat by lia. cbn [nth plus].
      rewrite <- app_assoc. rewrite app_nth2 by lia. rewrite Nat.sub_diag. reflexivity. }
    rewrite (EQ _ (str_eqb (lower y) #"lr") (if str_eqb (lower y) #"lr" then mid else mid ++ [y])).
    - rewrite RUN. destruct (str_eqb (lower y) #"lr"); reflexivity.
    - rewrite SH, app_length. cbn [length]. apply Nat.ltb_ge. lia.
    - reflexivity.
    - rewrite LA. reflexivity.
    - rewrite N2. reflexivity.
    - rewrite SH, app_length. cbn [length skipn].
      destruct (str_eqb (lower y) #"lr").
      + replace (3 + (length mid + 1) - 2 - 2)%nat with (length mid + 0)%nat by lia. rewrite <- !app_assoc, firstn_app_2. apply app_nil_r.
      + replace (3 + (length mid + 1) - 2 - 1)%nat with (length (mid ++ [y]) + 0)%nat by (rewrite app_length; cbn; lia).
        rewrite firstn_app_2. apply app_nil_r. }
  split.
  - intros H. unfold thumb_push in H. destruct (Nat.ltb (length (t0 :: ops)) 4) eqn:LT; [discriminate H|]. apply Nat.ltb_ge in LT. cbn [length] in LT.
    destruct ops as [|o ops]; [cbn in LT; lia|]. cbn [nth] in H.
    destruct (negb (str_eqb o #"{") || negb (str_eqb (last (t0 :: o :: ops) []) #"}")) eqn:BR; [discriminate H|].
    apply orb_false_iff in BR. destruct BR as [B1 B2]. apply negb_false_iff in B1, B2. apply str_eqb_eq in B1. subst o.
    destruct (exists_last (l := ops)) as (mid0 & z & ->); [intros ->; cbn in LT; lia|].
    rewrite LA in B2. apply str_eqb_eq in B2. subst z. cbn [length] in LT. rewrite app_length in LT. cbn [length] in LT.
    destruct (exists_last (l := mid0)) as (mid & y & ->); [intros ->; cbn in LT; lia|].
    assert (H' : thumb_push (t0 :: #"{" :: (mid ++ [y]) ++ [#"}"]) s = (s1, Ok (Some b))).
    { unfold thumb_push. rewrite SH, app_length. cbn [length]. destruct (Nat.ltb (3 + (length mid + 1)) 4) eqn:X; [apply Nat.ltb_lt in X; lia|].
      cbn [nth]. rewrite LA. rewrite SH, app_length in H. cbn [length] in H. exact H. }
    apply MAIN in H'. destruct H' as [-> H']. split; [reflexivity|].
    destruct (str_eqb (lower y) #"lr") eqn:Y; destruct H' as (mask & M & ->).
    + apply str_eqb_eq in Y. exists mid, 1, mask. split; [exact M|]. split; [|reflexivity]. right. exists y.
      split; [reflexivity|]. split; [rewrite <- app_assoc; reflexivity|exact Y].
    + exists (mid ++ [y]), 0, mask. split; [exact M|]. split; [|reflexivity]. left. split; [reflexivity|].
      split; [destruct mid; discriminate|]. split; [reflexivity|]. rewrite last_last. intros E. rewrite E in Y. discriminate Y.
  - intros (-> & body & lr & mask & M & [(-> & NE & -> & NL)|(x & -> & -> & LR)] & ->).
    + destruct (exists_last NE) as (mid & y & ->). apply MAIN. split; [reflexivity|]. rewrite last_last in NL.
      destruct (str_eqb (lower y) #"lr") eqn:Y; [apply str_eqb_eq in Y; contradiction|]. eauto.
    + replace (#"{" :: body ++ [x; #"}"]) with (#"{" :: (body ++ [x]) ++ [#"}"]) by (rewrite <- app_assoc; reflexivity).
      apply MAIN. split; [reflexivity|]. rewrite LR. exists mask. auto.
Qed.

(** PUSH of low registers: bit n of the half word tells whether register n is in the list. *)
Theorem C42_push : forall e fuel words l s s' t0 ops,
  opcode_stmt (thumb e) s words t0 ops -> upper t0 = #"PUSH" ->
  (forall pre x, ops = pre ++ [x; #"}"] -> lower x <> #"lr") ->
  exec (thumb e) fuel [Stmt KInstruction words l] s = (s', Ok tt) <->
  exists body mask, ops = #"{" :: body ++ [#"}"] /\ body <> [] /\ list_mask body mask /\
    emitted s (half_bytes (0xB400 + mask)) s'.
Proof.
  intros e fuel words l s s' t0 ops OS U NL. rewrite (exec_opcode _ _ _ _ _ fuel l OS). rewrite thumb_key, U.
  rewrite (fun_result _ _ _ thumb_push) by (rewrite thumb_lookup; reflexivity).
  destruct (thumb_push (t0 :: ops) s) as [s1 r] eqn:X. cbn [fst snd]. split.
  - intros (b & -> & EM). apply push_shape in X. destruct X as (-> & body & lr & mask & M & [(-> & NE & -> & _)|(x & _ & -> & LR)] & ->).
    + exists body, mask. rewrite Z.mul_0_l, Z.add_0_r in EM. auto.
    + exfalso. exact (NL (#"{" :: body) x eq_refl LR).
  - intros (body & mask & -> & NE & M & EM).
    assert (Y : thumb_push (t0 :: #"{" :: body ++ [#"}"]) s = (s, Ok (Some (half_bytes (0xB400 + 0 * 0x800 + mask))))).
    { apply push_shape. split; [reflexivity|]. exists body, 0, mask. split; [exact M|]. split; [|reflexivity]. left.
      split; [reflexivity|]. split; [exact NE|]. split; [reflexivity|].
      destruct (exists_last NE) as (mid & y & ->). rewrite last_last. apply (NL (#"{" :: mid) y). rewrite <- app_assoc. reflexivity. }
    rewrite X in Y. injection Y as -> ->. exists (half_bytes (0xB400 + mask)). split; [reflexivity|exact EM].
Qed.
Print Assumptions C42_push.

(** With LR, bit 11 is set instead of bit 8. *)
Theorem C42_push_lr_refuted : forall e fuel words l s t0 body x mask,
  opcode_stmt (thumb e) s words t0 (#"{" :: body ++ [x; #"}"]) -> upper t0 = #"PUSH" -> lower x = #"lr" -> list_mask body mask ->
  exists s', exec (thumb e) fuel [Stmt KInstruction words l] s = (s', Ok tt) /\
    emitted s (half_bytes (0xBC00 + mask)) s' /\ half_bytes (0xBC00 + mask) <> half_bytes (0xB500 + mask).
Proof.
  intros e fuel words l s t0 body x mask OS U LR M. rewrite (exec_opcode _ _ _ _ _ fuel l OS). rewrite thumb_key, U.
  assert (Y : thumb_push (t0 :: #"{" :: body ++ [x; #"}"]) s = (s, Ok (Some (half_bytes (0xB400 + 1 * 0x800 + mask))))).
  { apply push_shape. split; [reflexivity|]. exists body, 1, mask. split; [exact M|]. split; [|reflexivity]. right. exists x. auto. }
  exists (set_counter (set_assembled s (assembled s ++ half_bytes (0xBC00 + mask))) (org_counter s + zlen (half_bytes (0xBC00 + mask)))).
  split; [|split; [reflexivity|]].
  - apply (fun_result _ _ _ thumb_push); [rewrite thumb_lookup; reflexivity|]. rewrite Y. cbn [fst snd].
    exists (half_bytes (0xBC00 + mask)). split; reflexivity.
  - pose proof (mask_range _ _ M). unfold half_bytes. intros E.
    assert (E1 : (0xBC00 + mask) / 256 = 0xBC) by (symmetry; apply (Z.div_unique_pos _ _ _ mask); lia).
    assert (E2 : (0xB500 + mask) / 256 = 0xB5) by (symmetry; apply (Z.div_unique_pos _ _ _ mask); lia).
    apply (f_equal (fun b => nth 1 b 0)) in E. cbn [nth] in E. rewrite E1, E2 in E. discriminate E.
Qed.
Print Assumptions C42_push_lr_refuted.

Definition th := thumb demo_env.
Definition th_run (l : list string) := assemble th 5 (lines l) (init_st []).
Definition th_fails (l : list string) : bool := match snd (th_run l) with Ok _ => false | Err _ => true end.

Example C42_example :
  let s := init_st [] in
  opcode_stmt th s [#"add"; #"R1"; #"r2"; #"#7"] #"add" [#"R1"; #"r2"; #"#7"] /\
  In (upper #"add", (0x1C00, [Rl 0; Rl 3; Imm 3 6 0])) manual /\
  encodes s [Rl 0; Rl 3; Imm 3 6 0] [#"R1"; #"r2"; #"#7"] 0x1D1 [] /\
  regular s #"ADD" [#"R1"; #"r2"; #"#7"] /\
  half_bytes (0x1C00 + 0x1D1) = [0xD1; 0x1D] /\
  list_mask [#"r0"; #"R4-r6"] 0x71 /\
  assembled (fst (th_run ["add R1, r2, #7"; "mov r3, #0x80"; "lsl r0, r1, #31"; "cmp sp, r1"; "bx lr";
    "ldr r1, [pc, #8]"; "ldr r1, [r2, #124]"; "swi 255"; "beq 16"; "b 0"; "push { r0, R4-r6 }"]%string)) =
    [0xD1; 0x1D;  0x80; 0x23;  0xC8; 0x07;  0x8D; 0x45;  0x70; 0x47;
     0x02; 0x49;  0xD1; 0x6F;  0xFF; 0xDF;  0x08; 0xD0;  0; 0xE0;  0x71; 0xB4] /\
  th_fails ["add r1, r2, #8"]%string = true /\ th_fails ["mov r1, r2"]%string = true /\ th_fails ["swi 256"]%string = true /\
  th_fails ["beq 512"]%string = true /\ th_fails ["push { R0 }"]%string = true.
Proof.
  cbv zeta. split; [apply plain_stmt; reflexivity|]. split; [vm_compute; tauto|].
  split.
  { change 0x1D1 with (1 * 2 ^ 0 + (2 * 2 ^ 3 + (7 / 2 ^ 0 * 2 ^ 6 + 0))).
    apply (en_cons _ _ _ _ _ _ _ [] []); [apply o_low; cbn; tauto|]. apply (en_cons _ _ _ _ _ _ _ [] []); [apply o_low; cbn; tauto|].
    apply (en_cons _ _ _ _ _ _ _ [] []); [|constructor].
    apply (o_imm (init_st []) 3 6 0 #"7" 7); [discriminate|vm_compute; reflexivity|vm_compute; reflexivity]. }
  split.
  { split.
    - intros ks I L. cbn in I.
      repeat (destruct I as [I|I]; [first [discriminate I | injection I as <-; inversion L; subst; 
        repeat match goal with H : Forall2 _ _ _ |- _ => inversion H; clear H; subst end;
        match goal with H : looks Rpc _ |- _ => inversion H; subst; match goal with K : In _ high_names |- _ => vm_compute in K end; intuition discriminate
        | H : looks Rsp _ |- _ => inversion H; subst; match goal with K : In _ high_names |- _ => vm_compute in K end; intuition discriminate end ]|]).
      destruct I.
    - intros (a & b & r & E & _). discriminate E. }
  split; [reflexivity|]. split.
  { split; [|split; [lia|]].
    - constructor; [exists 0, 0; constructor; cbn; tauto|]. constructor; [|constructor].
      exists 4, 6. apply (it_range #"R4" #"r6"); [cbn; tauto|cbn; tauto|lia].
    - assert (I1 : item #"r0" 0 0) by (constructor; cbn; tauto).
      assert (I2 : item #"R4-r6" 4 6) by (apply (it_range #"R4" #"r6"); [cbn; tauto|cbn; tauto|lia]).
      intros i I. split.
      + intros T. assert (i < 8).
        { destruct (Z.lt_ge_cases i 8); [assumption|]. rewrite (Z.bits_above_log2 0x71 i) in T; [discriminate|lia|]. change (Z.log2 0x71) with 6. lia. }
        assert (C : i = 0 \/ i = 1 \/ i = 2 \/ i = 3 \/ i = 4 \/ i = 5 \/ i = 6 \/ i = 7) by lia.
        destruct C as [-> | [-> | [-> | [-> | [-> | [-> | [-> | ->]]]]]]]; try discriminate T;
          [exists #"r0", 0, 0; split; [left; reflexivity|]; split; [exact I1|lia]|..];
          (exists #"R4-r6", 4, 6; split; [right; left; reflexivity|]; split; [exact I2|lia]).
      + intros (t & m & n & [<- | [<- | []]] & IT & L).
        * destruct (item_fun _ _ _ _ _ I1 IT) as [<- <-]. replace i with 0 by lia. reflexivity.
        * destruct (item_fun _ _ _ _ _ I2 IT) as [<- <-]. assert (C : i = 4 \/ i = 5 \/ i = 6) by lia.
          destruct C as [-> | [-> | ->]]; reflexivity. }
  split; [vm_compute; reflexivity|]. split; [vm_compute; reflexivity|]. split; [vm_compute; reflexivity|].
  split; [vm_compute; reflexivity|]. split; [vm_compute; reflexivity|vm_compute; reflexivity].
Qed.

(** The deviations: ADD of PC or SP does not scale its immediate, LDRB divides it by four,
    LDRH does not divide it by two, LDRH with registers is an entirely different
    instruction (CMP), and STR with an immediate is LDR. *)
Theorem C42_deviating_refuted :
  assembled (fst (th_run ["add r0, pc, #8"]%string)) = half_bytes (0xA000 + 8) /\
  assembled (fst (th_run ["add r0, sp, #8"]%string)) = half_bytes (0xA800 + 8) /\
  assembled (fst (th_run ["ldrb r0, [r1, #8]"]%string)) = half_bytes (0x7800 + 2 * 2 ^ 6 + 2 ^ 3) /\
  assembled (fst (th_run ["ldrh r0, [r1, #8]"]%string)) = half_bytes (0x8800 + 8 * 2 ^ 6 + 2 ^ 3) /\
  assembled (fst (th_run ["ldrh r0, [r1, r2]"]%string)) = half_bytes (0x2C00 + 2 * 2 ^ 6 + 2 ^ 3) /\
  assembled (fst (th_run ["str r0, [r1, #8]"]%string)) = assembled (fst (th_run ["ldr r0, [r1, #8]"]%string)).
Proof. repeat (split; [vm_compute; reflexivity|]). vm_compute. reflexivity. Qed.
(** Offsets that are not multiples of four are rounded down without complaint; negative
    word offsets become large positive ones. *)
Theorem C42_offset_refuted :
  assembled (fst (th_run ["ldr r0, [r1, #7]"]%string)) = assembled (fst (th_run ["ldr r0, [r1, #4]"]%string)) /\
  assembled (fst (th_run ["ldr r0, [pc, #6]"]%string)) = assembled (fst (th_run ["ldr r0, [pc, #4]"]%string)) /\
  assembled (fst (th_run ["ldr r0, [sp, #-4]"]%string)) = half_bytes (0x9800 + 0xFF).
Proof. repeat (split; [vm_compute; reflexivity|]). vm_compute. reflexivity. Qed.

(** ** Linked half words *)

Lemma thumb_refs : forall s ks ops w ds, forallb sensible ks = true -> encodes s ks ops w ds -> Forall sound_ref ds.
Proof.
  intros s ks ops w ds S H. induction H as [|k ks t ts v w ds es O E IH]; [constructor|].
  cbn [forallb] in S. apply andb_prop in S. destruct S as [S1 S2]. apply Forall_app. split; [|apply IH; exact S2].
  destruct O; try constructor; try constructor; (sound; [cbn [sensible] in S1; lia|intros b E0; injection E0 as <-; cbn; lia]) ||
    (sound; intros b E0; injection E0 as <-; cbn; lia).
Qed.
Lemma half_bytes_len : forall w, zlen (half_bytes w) = 2.
Proof. reflexivity. Qed.

Section LinkedThumb.
  Context (e : env) (fuel : nat) (text : str) (s0 s : st) (words : list str) (l : Z) (s1 s2 s3 : st)
    (t0 : str) (ops : list str) (base : Z) (ks : list kind).
  Let c := thumb e.
  Context (B : byte_files c) (SN : sane s0)
    (H : passes_through c fuel text s0 s (Stmt KInstruction words l) s1 s2)
    (OS : opcode_stmt c s words t0 ops) (PC : 0 <= pc s) (I : In (upper t0, (base, ks)) manual)
    (RG : regular s (upper t0) ops) (NT : short_texts c s2)
    (LK : link c dummy_linker s2 = (s3, Ok tt)).

  Lemma thumb_emitted : forall w ds, encodes s ks ops w ds -> emitted (referring s ds) (half_bytes (base + w)) s1.
  Proof.
    intros w ds EN. destruct H as (_ & _ & _ & _ & X & _).
    assert (NB : upper t0 <> #"BL" /\ upper t0 <> #"PUSH").
    { assert (T : forallb (fun '(m, _) => negb (str_eqb m #"BL") && negb (str_eqb m #"PUSH")) manual = true) by (vm_compute; reflexivity).
      rewrite forallb_forall in T. apply T in I. apply andb_prop in I. destruct I as [I1 I2]. apply negb_true_iff in I1, I2.
      split; intros E; rewrite E in *; discriminate. }
    assert (Y : exec c fuel [Stmt KInstruction words l] s =
      (set_counter (set_assembled (referring s ds) (assembled (referring s ds) ++ half_bytes (base + w))) (org_counter (referring s ds) + zlen (half_bytes (base + w))), Ok tt)).
    { apply (C42_encoding e fuel words l s _ t0 ops OS (proj1 NB) (proj2 NB) PC RG). exists base, ks, w, ds.
      split; [exact I|]. split; [exact EN|reflexivity]. }
    unfold c in *. rewrite X in Y. injection Y as Y. exact Y.
  Qed.

  (** A half word with one reference filling its low n bits. *)
  Lemma thumb_filled : forall w t bits bs al n k, encodes s ks ops w [half_ref t bits bs al n k] ->
    0 <= base + w < 2 ^ 16 -> 1 <= n <= 16 -> (base + w) mod 2 ^ n = 0 -> bs <> 0 ->
    exists a v, label_absolute (c_p c) (labels s2) t = Ok (Some a) /\ label_relative (c_p c) (labels s2) t bs = Ok (Some v) /\ (al | a) /\
      - 2 ^ (bits - 1) <= v < 2 ^ (bits - 1) /\
      slice (zlen (assembled s)) 2 (assembled s3) = half_bytes (base + w + Z.shiftr v k mod 2 ^ n).
  Proof.
    intros w t bits bs al n k EN W NN DV BS. pose proof (thumb_emitted _ _ EN) as EM.
    pose proof (thumb_refs _ _ _ _ _ (sensible_manual _ _ _ I) EN) as SR. destruct (thumb_fits e) as [F N].
    assert (PL : placed (zlen (half_bytes (base + w))) [half_ref t bits bs al n k]) by (apply placed_one; cbn; lia).
    assert (Z0 : ((base + w) / 2 ^ 0) mod 2 ^ (n - 1 - 0 + 1) = 0).
    { change (2 ^ 0) with 1. rewrite Z.div_1_r. replace (n - 1 - 0 + 1) with n by lia. exact DV. }
    destruct (linked_word c fuel text s0 s _ s1 s2 s3 _ _ F N B SN H EM SR PL NT LK 2 (base + w) _ (n - 1) 0 eq_refl
      (half_bytes_eq _ W) W eq_refl eq_refl eq_refl) as (a & v & T & A & R & OK & SL); [lia|cbn; lia|exact Z0|].
    unfold in_range in R. cbn [half_ref ld_relative ld_bits_size] in R. destruct (Z.eqb_spec bs 0) as [|_]; [contradiction|].
    inversion T as [? Q _|? ? _ Q1 Q]; subst; cbn [half_ref ld_relative ld_label] in *; [contradiction|].
    exists a, v. split; [exact Q1|]. split; [exact Q|]. split; [exact A|]. split; [exact R|].
    unfold filtered in SL. cbn [half_ref ld_filter] in SL. replace (n - 1 - 0 + 1) with n in SL by lia.
    change (Z.of_nat 2) with 2 in SL. change (2 ^ 0) with 1 in SL. rewrite Z.mul_1_r in SL.
    change (big_endian (c_p c)) with false in SL. rewrite SL. symmetry. apply half_bytes_eq.
    assert (P : 0 < 2 ^ n) by (apply Z.pow_pos_nonneg; lia).
    pose proof (Z.mod_pos_bound (Z.shiftr v k) (2 ^ n) P).
    assert (Q0 : 2 ^ 16 = 2 ^ n * 2 ^ (16 - n)) by (rewrite <- Z.pow_add_r by lia; f_equal; lia).
    apply Z.mod_divide in DV; [|lia]. destruct DV as (q & DV).
    assert (0 < 2 ^ (16 - n)) by (apply Z.pow_pos_nonneg; lia).
    assert (q < 2 ^ (16 - n)) by nia. split; [lia|]. nia.
  Qed.
End LinkedThumb.

(** ** C51 *)


Lemma branch_regular : forall m base n s t, In (m, (base, [Dest n])) manual -> regular s m [t].
Proof.
  intros m base n s t I. split.
  - intros ks J L.
    assert (T : forallb (fun '(m, (_, js)) => match js with [Dest _] => forallb (fun '(k, _) => negb (str_eqb k m)) (deviating ++ refused) | _ => true end) manual = true)
      by (vm_compute; reflexivity).
    rewrite forallb_forall in T. specialize (T _ I). cbv beta iota in T. rewrite forallb_forall in T. specialize (T _ J). cbv beta iota in T.
    apply negb_true_iff in T. assert (str_eqb m m = true) by (apply str_eqb_eq; reflexivity). congruence.
  - intros (a & b & r & E & _). discriminate E.
Qed.
Lemma branch_table : forall m base n, In (m, (base, [Dest n])) manual ->
  (n = 8 \/ n = 11) /\ 0 <= base < 2 ^ 16 /\ base mod 2 ^ n = 0.
Proof.
  intros m base n I.
  assert (T : forallb (fun '(_, (base, js)) => match js with [Dest n] => ((n =? 8) || (n =? 11)) && (0 <=? base) && (base <? 65536) && (base mod 2 ^ n =? 0) | _ => true end) manual = true)
    by (vm_compute; reflexivity).
  rewrite forallb_forall in T. specialize (T _ I). cbv beta iota in T. rewrite !andb_true_iff, orb_true_iff in T.
  change (2 ^ 16) with 65536. lia.
Qed.

Lemma branch_field : forall e fuel text s0 s words l s1 s2 s3 t0 base n ch r,
  let c := thumb e in let t : str := ch :: r in
  byte_files c -> sane s0 -> passes_through c fuel text s0 s (Stmt KInstruction words l) s1 s2 ->
  opcode_stmt c s words t0 [t] -> In (upper t0, (base, [Dest n])) manual -> ch <> "#"%char ->
  not_num thumb_cfg s t (n + 1) true -> 0 <= pc s -> short_texts c s2 ->
  link c dummy_linker s2 = (s3, Ok tt) ->
  exists a v, label_absolute (c_p c) (labels s2) t = Ok (Some a) /\ label_relative (c_p c) (labels s2) t (pc s + 4) = Ok (Some v) /\ (2 | a) /\
    - 2 ^ n <= v < 2 ^ n /\
    slice (zlen (assembled s)) 2 (assembled s3) = half_bytes (base + (v / 2) mod 2 ^ n).
Proof.
  intros e fuel text s0 s words l s1 s2 s3 t0 base n ch r c t B SN H OS I NH NN PC NT LK.
  destruct (branch_table _ _ _ I) as (N & BR & BD).
  assert (EN : encodes s [Dest n] [t] 0 [half_ref t (n + 1) (pc s + 4) 2 n 1]).
  { apply (en_cons s (Dest n) [] t [] 0 0 [half_ref t (n + 1) (pc s + 4) 2 n 1] []); [|constructor]. apply o_dest_ref; assumption. }
  destruct (thumb_filled e fuel text s0 s words l s1 s2 s3 t0 [t] base [Dest n] B SN H OS PC I (branch_regular _ _ _ _ _ I) NT LK
    0 t (n + 1) (pc s + 4) 2 n 1 EN) as (a & v & Q1 & Q & A & R & SL); [lia|lia|rewrite Z.add_0_r; exact BD|lia|].
  exists a, v. split; [exact Q1|]. split; [exact Q|]. split; [exact A|]. replace (n + 1 - 1) with n in R by lia. split; [exact R|].
  rewrite SL, Z.add_0_r. rewrite Z.shiftr_div_pow2 by lia. reflexivity.
Qed.

(** A branch that links leads to its label. *)
Theorem C51_branch : forall e fuel text s0 s words l s1 s2 s3 t0 base n ch r,
  let c := thumb e in let t : str := ch :: r in
  byte_files c -> sane s0 -> passes_through c fuel text s0 s (Stmt KInstruction words l) s1 s2 ->
  opcode_stmt c s words t0 [t] -> In (upper t0, (base, [Dest n])) manual -> ch <> "#"%char ->
  not_num thumb_cfg s t (n + 1) true -> no_select t -> no_ops t -> 0 <= pc s -> (2 | pc s) -> short_texts c s2 ->
  link c dummy_linker s2 = (s3, Ok tt) ->
  exists a x, address_of (labels s2) t a /\ 0 <= x < 2 ^ n /\
    slice (zlen (assembled s)) 2 (assembled s3) = half_bytes (base + x) /\ branch_target n (pc s) x = a.
Proof.
  intros e fuel text s0 s words l s1 s2 s3 t0 base n ch r c t B SN H OS I NH NN NS NO PC EV NT LK.
  destruct (branch_table _ _ _ I) as (N & _ & _).
  destruct (branch_field e fuel text s0 s words l s1 s2 s3 t0 base n ch r B SN H OS I NH NN PC NT LK) as (a & v & Q1 & Q & A & R & SL).
  assert (NE : t <> []) by discriminate.
  destruct (plain_relative _ _ _ _ _ NS NO NE Q) as (a1 & A1 & ->).
  rewrite ParseFacts.label_absolute_relative in Q1. destruct (plain_relative _ _ _ _ _ NS NO NE Q1) as (a2 & A2 & ->).
  assert (a2 = a1) by (unfold address_of in *; destruct A1 as (x1 & D1 & E1), A2 as (x2 & D2 & E2); congruence). subst a2.
  rewrite Z.sub_0_r in *. assert (P : 0 < 2 ^ n) by (apply Z.pow_pos_nonneg; lia).
  exists a1, (((a1 - (pc s + 4)) / 2) mod 2 ^ n). split; [exact A1|]. split; [apply Z.mod_pos_bound; exact P|]. split; [exact SL|].
  destruct A as (q & ->). destruct EV as (p & EV). rewrite EV in *. unfold branch_target.
  replace (q * 2 - (p * 2 + 4)) with ((q - p - 2) * 2) in * by lia. rewrite Z.div_mul by lia.
  assert (E : 2 ^ n = 2 * 2 ^ (n - 1)) by (rewrite <- Z.pow_succ_r by lia; f_equal; lia).
  destruct (Z.lt_ge_cases (q - p - 2) 0).
  - assert (X : (q - p - 2) mod 2 ^ n = q - p - 2 + 2 ^ n).
    { symmetry. apply (Z.mod_unique_pos _ _ (-1)); lia. }
    rewrite X. destruct (Z.ltb_spec (q - p - 2 + 2 ^ n) (2 ^ (n - 1))); lia.
  - rewrite Z.mod_small by lia. destruct (Z.ltb_spec (q - p - 2) (2 ^ (n - 1))); lia.
Qed.
Print Assumptions C51_branch.

(** A branch to a label out of reach, or at an odd address, does not link. *)
Theorem C51_too_far : forall e fuel text s0 s words l s1 s2 t0 base n ch r,
  let c := thumb e in let t : str := ch :: r in
  byte_files c -> sane s0 -> passes_through c fuel text s0 s (Stmt KInstruction words l) s1 s2 ->
  opcode_stmt c s words t0 [t] -> In (upper t0, (base, [Dest n])) manual -> ch <> "#"%char ->
  not_num thumb_cfg s t (n + 1) true -> no_select t -> no_ops t -> 0 <= pc s -> short_texts c s2 ->
  (forall a, address_of (labels s2) t a -> ~ (- 2 ^ n <= a - (pc s + 4) < 2 ^ n) \/ ~ (2 | a)) ->
  snd (link c dummy_linker s2) <> Ok tt.
Proof.
  intros e fuel text s0 s words l s1 s2 t0 base n ch r c t B SN H OS I NH NN NS NO PC NT FAR LK.
  destruct (link c dummy_linker s2) as [s3 x] eqn:E. cbn [snd] in LK. subst x.
  destruct (branch_field e fuel text s0 s words l s1 s2 s3 t0 base n ch r B SN H OS I NH NN PC NT E) as (a & v & Q1 & Q & A & R & SL).
  assert (NE : t <> []) by discriminate.
  destruct (plain_relative _ _ _ _ _ NS NO NE Q) as (a1 & A1 & ->).
  rewrite ParseFacts.label_absolute_relative in Q1. destruct (plain_relative _ _ _ _ _ NS NO NE Q1) as (a2 & A2 & ->).
  assert (a2 = a1) by (unfold address_of in *; destruct A1 as (x1 & D1 & E1), A2 as (x2 & D2 & E2); congruence). subst a2.
  rewrite Z.sub_0_r in A. destruct (FAR _ A1) as [X|X]; [exact (X R)|exact (X A)].
Qed.
Print Assumptions C51_too_far.

Lemma load_base_even : forall s, 0 <= pc s -> (2 | pc s) -> load_base s = (pc s + 4) / 4 * 4.
Proof.
  intros s P (q & E). unfold load_base. rewrite E. change (-3) with (Z.lnot 2). rewrite <- Z.ldiff_land.
  replace (q * 2 + 4) with (Z.shiftl (q + 2) 1) by (rewrite Z.shiftl_mul_pow2 by lia; change (2 ^ 1) with 2; lia).
  change 2 with (Z.shiftl (Z.ones 1) 1) at 2. rewrite <- Z.shiftl_ldiff. rewrite Z.ldiff_ones_r by lia.
  rewrite !Z.shiftl_mul_pow2, Z.shiftr_div_pow2 by lia. change (2 ^ 1) with 2.
  replace ((q + 2) * 2 / 4) with ((q + 2) / 2) by (change 4 with (2 * 2); rewrite Z.div_mul_cancel_r by lia; reflexivity). lia.
Qed.

Lemma load_field : forall e fuel text s0 s words l s1 s2 s3 t0 ra n rb t,
  let c := thumb e in
  byte_files c -> sane s0 -> passes_through c fuel text s0 s (Stmt KInstruction words l) s1 s2 ->
  opcode_stmt c s words t0 [ra; #"["; rb; hash t; #"]"] -> upper t0 = #"LDR" -> In (lower ra, n) low_names ->
  In (lower rb, 15) high_names -> t <> [] -> not_num thumb_cfg s t 8 true -> 0 <= pc s -> short_texts c s2 ->
  link c dummy_linker s2 = (s3, Ok tt) ->
  exists a v, label_absolute (c_p c) (labels s2) t = Ok (Some a) /\ label_relative (c_p c) (labels s2) t (load_base s) = Ok (Some v) /\ (4 | a) /\
    - 128 <= v < 128 /\
    slice (zlen (assembled s)) 2 (assembled s3) = half_bytes (0x4800 + n * 2 ^ 8 + (v / 4) mod 256).
Proof.
  intros e fuel text s0 s words l s1 s2 s3 t0 ra n rb t c B SN H OS U RA RB NE NN PC NT LK.
  assert (I : In (upper t0, (0x4800, ind_reg 8 [Rpc; Word8])) manual) by (rewrite U; vm_compute; tauto).
  assert (RG : regular s (upper t0) [ra; #"["; rb; hash t; #"]"]).
  { rewrite U. split.
    - intros ks J _. vm_compute in J. intuition discriminate.
    - intros (a & b & r & E & X). injection E as <- <- <-. destruct X as [[_ (v & V & _)]|[S _]].
      + unfold num, not_num in *. congruence.
      + pose proof (high_fun _ _ _ S RB). discriminate. }
  assert (EN : encodes s (ind_reg 8 [Rpc; Word8]) [ra; #"["; rb; hash t; #"]"] (n * 2 ^ 8) [half_ref t 8 (load_base s) 4 8 2]).
  { replace (n * 2 ^ 8) with (n * 2 ^ 8 + (0 + (0 + (0 + (0 + 0))))) by lia.
    apply (en_cons s (Rl 8) _ ra _ _ _ [] _); [apply o_low; exact RA|]. apply (en_cons s _ _ _ _ _ _ [] _); [apply o_lit|].
    apply (en_cons s _ _ _ _ _ _ [] _); [apply o_pc; exact RB|].
    apply (en_cons s _ _ _ _ _ _ [half_ref t 8 (load_base s) 4 8 2] []); [apply o_word_ref; assumption|].
    apply (en_cons s _ _ _ _ _ _ [] []); [apply o_lit|constructor]. }
  pose proof (low_range _ _ RA) as LR.
  assert (DV : (0x4800 + n * 2 ^ 8) mod 2 ^ 8 = 0).
  { change 0x4800 with (0x48 * 2 ^ 8). rewrite <- Z.mul_add_distr_r. apply Z.mod_mul. cbn. lia. }
  destruct (thumb_filled e fuel text s0 s words l s1 s2 s3 t0 _ _ _ B SN H OS PC I RG NT LK
    (n * 2 ^ 8) t 8 (load_base s) 4 8 2 EN) as (a & v & Q1 & Q & A & R & SL);
    [change (2 ^ 8) with 256; change (2 ^ 16) with 65536; lia|lia|exact DV|unfold load_base; apply land_base; exact PC|].
  exists a, v. split; [exact Q1|]. split; [exact Q|]. split; [exact A|]. change (8 - 1) with 7 in R. change (2 ^ 7) with 128 in R. split; [exact R|].
  rewrite SL. rewrite Z.shiftr_div_pow2 by lia. reflexivity.
Qed.

(** A PC-relative load that links reads the word at its label, if the label lies ahead. *)
Theorem C51_load : forall e fuel text s0 s words l s1 s2 s3 t0 ra n rb t,
  let c := thumb e in
  byte_files c -> sane s0 -> passes_through c fuel text s0 s (Stmt KInstruction words l) s1 s2 ->
  opcode_stmt c s words t0 [ra; #"["; rb; hash t; #"]"] -> upper t0 = #"LDR" -> In (lower ra, n) low_names ->
  In (lower rb, 15) high_names -> t <> [] -> not_num thumb_cfg s t 8 true -> no_select t -> no_ops t ->
  0 <= pc s -> (2 | pc s) -> short_texts c s2 ->
  link c dummy_linker s2 = (s3, Ok tt) ->
  exists a x, address_of (labels s2) t a /\ 0 <= x < 256 /\
    slice (zlen (assembled s)) 2 (assembled s3) = half_bytes (0x4800 + n * 2 ^ 8 + x) /\
    (pc s < a -> load_target (pc s) x = a).
Proof.
  intros e fuel text s0 s words l s1 s2 s3 t0 ra n rb t c B SN H OS U RA RB NE NN NS NO PC EV NT LK.
  destruct (load_field e fuel text s0 s words l s1 s2 s3 t0 ra n rb t B SN H OS U RA RB NE NN PC NT LK) as (a & v & Q1 & Q & A & R & SL).
  destruct (plain_relative _ _ _ _ _ NS NO NE Q) as (a1 & A1 & ->).
  rewrite ParseFacts.label_absolute_relative in Q1. destruct (plain_relative _ _ _ _ _ NS NO NE Q1) as (a2 & A2 & ->).
  assert (a2 = a1) by (unfold address_of in *; destruct A1 as (x1 & D1 & E1), A2 as (x2 & D2 & E2); congruence). subst a2.
  rewrite Z.sub_0_r in *. exists a1, (((a1 - load_base s) / 4) mod 256). split; [exact A1|]. split; [apply Z.mod_pos_bound; lia|]. split; [exact SL|].
  intros AH. rewrite (load_base_even s PC EV) in *. destruct A as (q & ->). destruct EV as (p & EV). rewrite EV in *. unfold load_target.
  replace (q * 4 - (p * 2 + 4) / 4 * 4) with ((q - (p * 2 + 4) / 4) * 4) in * by lia. rewrite Z.div_mul by lia.
  pose proof (Z.div_mod (p * 2 + 4) 4 ltac:(lia)). pose proof (Z.mod_pos_bound (p * 2 + 4) 4 ltac:(lia)).
  rewrite Z.mod_small; [lia|]. split; [|lia].
  assert (p < q * 2) by lia. assert ((p * 2 + 4) / 4 <= q); [|lia]. apply Z.lt_succ_r. apply Z.div_lt_upper_bound; lia.
Qed.
Print Assumptions C51_load.

(** A load from a label behind is assembled and linked as a load from far ahead. *)
Theorem C51_backward_refuted :
  let text := lines ["back: add r0, r0, r0"; "add r0, r0, r0"; "ldr r1, [pc, #back]"]%string in
  let s2 := fst (assemble th 5 text (init_st [])) in
  dget str_eqb (labels s2) #"back" <> None /\
  (exists s3, link th dummy_linker s2 = (s3, Ok tt) /\ assembled s3 = [0; 0x18; 0; 0x18] ++ half_bytes (0x4800 + 1 * 2 ^ 8 + 0xFE)) /\
  load_target 4 0xFE = 8 + 4 * 254.
Proof.
  cbv zeta. split; [vm_compute; discriminate|]. split; [linked|reflexivity].
Qed.

Definition c51_text : str := lines ["here: bne there"; "b here"; "ldr r3, [pc, #there]"; "swi 1"; "there: bx lr"]%string.
Example C51_example :
  let ss := stmts_of c51_text in
  let sa := fst (exec th 5 (firstn 1 ss) (init_st [])) in
  let sb := fst (exec th 5 (firstn 3 ss) (init_st [])) in
  let xa := Stmt KInstruction [#"bne"; #"there"] 1 in
  let xb := Stmt KInstruction [#"ldr"; #"r3"; #"["; #"pc"; #"#there"; #"]"] 3 in
  let s2 := fst (assemble th 5 c51_text (init_st [])) in
  byte_files th /\ sane (init_st []) /\
  passes_through th 5 c51_text (init_st []) sa xa (fst (exec th 5 [xa] sa)) s2 /\
  passes_through th 5 c51_text (init_st []) sb xb (fst (exec th 5 [xb] sb)) s2 /\
  opcode_stmt th sa [#"bne"; #"there"] #"bne" [#"there"] /\
  opcode_stmt th sb [#"ldr"; #"r3"; #"["; #"pc"; #"#there"; #"]"] #"ldr" [#"r3"; #"["; #"pc"; hash #"there"; #"]"] /\
  In (upper #"bne", (0xD100, [Dest 8])) manual /\ not_num thumb_cfg sa #"there" 9 true /\ not_num thumb_cfg sb #"there" 8 true /\
  no_text s2 /\ address_of (labels s2) #"there" 8 /\
  branch_target 8 0 2 = 8 /\ branch_target 11 2 0x7FD = 0 /\ load_target 4 0 = 8 /\
  exists s3, link th dummy_linker s2 = (s3, Ok tt) /\
    assembled s3 = half_bytes 0xD102 ++ half_bytes (0xE000 + 0x7FD) ++ half_bytes (0x4800 + 3 * 2 ^ 8 + 0) ++ half_bytes 0xDF01 ++ half_bytes 0x4770.
Proof.
  cbv zeta. split; [exact mos_files|]. split; [apply sane_init|]. split; [reached 1%nat|]. split; [reached 3%nat|].
  split; [apply plain_stmt; vm_compute; reflexivity|]. split; [apply plain_stmt; vm_compute; reflexivity|].
  split; [vm_compute; tauto|]. split; [vm_compute; reflexivity|]. split; [vm_compute; reflexivity|]. split; [untexted|].
  split; [eexists; split; vm_compute; reflexivity|]. split; [reflexivity|]. split; [reflexivity|]. split; [reflexivity|]. linked.
Qed.

(** ** C43 *)

Definition call_ref (t : str) (base : Z) (high : bool) : labeldata :=
  LabelData t 2 23 base (if high then 0 else 2) 2 (Some (10, 0))
    (Some (fun x => if high then Z.shiftr x 12 else Z.land (Z.shiftr x 1) 0x7FF)) None.

Lemma bl_name : forall (t0 t : str) s ch r, t = ch :: r -> ch <> "#"%char -> not_num thumb_cfg s t 23 true ->
  thumb_bl [t0; t] s = (referring s [call_ref t (pc s + 4) true; call_ref t (pc s + 4) false], Ok (Some [0; 0xF0; 0; 0xF8])).
Proof.
  intros t0 t s ch r E NH NN. unfold thumb_bl.
  assert (M : imatch [t0; t] 1 [PFun th_label] = true).
  { apply imatch_cons. constructor; [|constructor]. apply match_label. eauto. }
  rewrite M. unfold not_num in NN. change thumb_cfg with thumb_p in NN.
  unfold bind at 1. unfold tok_at. cbn [nth_error]. unfold m_parse_integer. unfold bind at 1. unfold get, ret, lift. cbv beta iota.
  unfold bind at 1. rewrite NN. reflexivity.
Qed.
Lemma bl_number : forall (t0 t : str) s ch r v, t = ch :: r -> ch <> "#"%char -> num thumb_cfg s t 23 true v -> v <> 0 ->
  thumb_bl [t0; t] s = (s, Ok (Some (half_bytes (0xF000 + (v / 4096) mod 2048) ++ half_bytes (0xF800 + (v / 2) mod 2048)))).
Proof.
  intros t0 t s ch r v E NH NU NZ. unfold thumb_bl.
  assert (M : imatch [t0; t] 1 [PFun th_label] = true).
  { apply imatch_cons. constructor; [|constructor]. apply match_label. eauto. }
  rewrite M. pose proof (num_range _ _ _ _ _ _ NU ltac:(lia)) as R. change (23 - 1) with 22 in R. change (2 ^ 22) with 4194304 in R. change (2 ^ 23) with 8388608 in R.
  unfold num in NU. change thumb_cfg with thumb_p in NU.
  unfold bind at 1. unfold tok_at. cbn [nth_error]. unfold m_parse_integer. unfold bind at 1. unfold get, ret, lift. cbv beta iota.
  unfold bind at 1. rewrite NU. cbv zeta. destruct (Z.eqb_spec v 0); [contradiction|].
  assert (PB : forall base u, base = 0xF000 \/ base = 0xF800 -> -1024 <= u < 2048 ->
    pack_bits_le16u base [((10, 0), u)] = Ok (half_bytes (base + u mod 2048))).
  { intros base u BB U. unfold pack_bits_le16u. cbn [pack_bits].
    rewrite (step_add base 10 0 u); [|lia|destruct BB as [-> | ->]; [exists 30; reflexivity|exists 31; reflexivity]|exact U].
    change (2 ^ (10 - 0 + 1)) with 2048. change (2 ^ 0) with 1. rewrite Z.mul_1_r. cbn [rbind].
    pose proof (Z.mod_pos_bound u 2048 ltac:(lia)).
    assert (RR : 0 <= base + u mod 2048 < 2 ^ 16) by (change (2 ^ 16) with 65536; lia).
    unfold pack_le16u. rewrite (pack_one false); [|reflexivity|reflexivity|exact RR]. rewrite half_bytes_eq by exact RR. reflexivity. }
  rewrite !Z.shiftr_div_pow2 by lia. change (2 ^ 1) with 2. change (2 ^ 11) with 2048. rewrite Z.div_div by lia. change (2 * 2048) with 4096.
  change 0x7ff with (Z.ones 11). rewrite Z.land_ones by lia. change (2 ^ 11) with 2048.
  unfold bind at 1. rewrite PB; [|auto|split; [apply Z.div_le_lower_bound; lia|apply Z.div_lt_upper_bound; lia]].
  pose proof (Z.mod_pos_bound (v / 2) 2048 ltac:(lia)).
  unfold bind at 1. rewrite PB; [|auto|lia]. rewrite Z.mod_mod by lia. reflexivity.
Qed.

(** A call written with a number: the displacement, to which the processor adds the
    address of the instruction and 4. *)
Theorem C43_number : forall e fuel words l s t0 ch r v,
  let t : str := ch :: r in
  opcode_stmt (thumb e) s words t0 [t] -> upper t0 = #"BL" -> ch <> "#"%char -> num thumb_cfg s t 23 true v -> v <> 0 ->
  exists h lo s', 0 <= h < 2048 /\ 0 <= lo < 2048 /\
    exec (thumb e) fuel [Stmt KInstruction words l] s = (s', Ok tt) /\
    emitted s (half_bytes (0xF000 + h) ++ half_bytes (0xF800 + lo)) s' /\
    ((2 | v) -> v < 2 ^ 22 -> call_target (pc s) h lo = pc s + 4 + v).
Proof.
  intros e fuel words l s t0 ch r v t OS U NH NU NZ. rewrite (exec_opcode _ _ _ _ _ fuel l OS). rewrite thumb_key, U.
  pose proof (num_range _ _ _ _ _ _ NU ltac:(lia)) as R. change (23 - 1) with 22 in R. change (2 ^ 22) with 4194304 in *. change (2 ^ 23) with 8388608 in R.
  pose proof (bl_number t0 t s ch r v eq_refl NH NU NZ) as X.
  set (b := half_bytes (0xF000 + (v / 4096) mod 2048) ++ half_bytes (0xF800 + (v / 2) mod 2048)) in *.
  exists ((v / 4096) mod 2048), ((v / 2) mod 2048), (set_counter (set_assembled s (assembled s ++ b)) (org_counter s + zlen b)).
  split; [apply Z.mod_pos_bound; lia|]. split; [apply Z.mod_pos_bound; lia|]. split.
  - apply (fun_result _ _ _ thumb_bl); [rewrite thumb_lookup; reflexivity|]. rewrite X. cbn [fst snd]. exists b. split; reflexivity.
  - split; [reflexivity|]. intros (q & ->) L. rewrite Z.div_mul by lia. unfold call_target, signed11.
    replace (q * 2 / 4096) with (q / 2048) by (rewrite (Z.mul_comm q 2); change 4096 with (2 * 2048); rewrite Z.div_mul_cancel_l by lia; reflexivity).
    pose proof (Z.div_mod q 2048 ltac:(lia)) as DM. pose proof (Z.mod_pos_bound q 2048 ltac:(lia)) as MB.
    destruct (Z.lt_ge_cases q 0).
    + assert (QQ : -1024 <= q / 2048 < 0) by (split; [apply Z.div_le_lower_bound; lia|apply Z.div_lt_upper_bound; lia]).
      assert (EM : (q / 2048) mod 2048 = q / 2048 + 2048) by (symmetry; apply (Z.mod_unique_pos _ _ (-1)); lia).
      rewrite EM. destruct (Z.ltb_spec (q / 2048 + 2048) 1024); lia.
    + assert (QQ : 0 <= q / 2048 < 1024) by (split; [apply Z.div_pos; lia|apply Z.div_lt_upper_bound; lia]).
      rewrite (Z.mod_small (q / 2048)) by lia. destruct (Z.ltb_spec (q / 2048) 1024); lia.
Qed.
Print Assumptions C43_number.

Lemma slice_join : forall A (l : list A) a n m, 0 <= n -> 0 <= m -> 0 <= a ->
  slice a (n + m) l = slice a n l ++ slice (a + n) m l.
Proof.
  intros A l a n m N M AA. unfold slice. rewrite !Z2Nat.inj_add by lia.
  replace (skipn (Z.to_nat a + Z.to_nat n) l) with (skipn (Z.to_nat n) (skipn (Z.to_nat a) l)).
  - generalize (skipn (Z.to_nat a) l) as k. intros k. generalize (Z.to_nat n) (Z.to_nat m). clear. intros i j.
    revert k. induction i as [|i IH]; intros k; [reflexivity|]. destruct k as [|x k]; [cbn; destruct j; reflexivity|].
    cbn [plus firstn skipn app]. f_equal. apply IH.
  - generalize (Z.to_nat a) (Z.to_nat n). clear. intros i j. revert l. induction i as [|i IH]; intros l; [reflexivity|].
    destruct l as [|x l]; [cbn; destruct j; reflexivity|]. cbn [plus skipn]. apply IH.
Qed.

Lemma call_linked : forall e fuel text s0 s words l s1 s2 s3 t0 ch r,
  let c := thumb e in let t : str := ch :: r in
  byte_files c -> sane s0 -> passes_through c fuel text s0 s (Stmt KInstruction words l) s1 s2 ->
  opcode_stmt c s words t0 [t] -> upper t0 = #"BL" -> ch <> "#"%char ->
  not_num thumb_cfg s t 23 true -> 0 <= pc s -> short_texts c s2 ->
  link c dummy_linker s2 = (s3, Ok tt) ->
  exists a v, label_absolute (c_p c) (labels s2) t = Ok (Some a) /\ label_relative (c_p c) (labels s2) t (pc s + 4) = Ok (Some v) /\ (2 | a) /\
    - 4194304 <= v < 4194304 /\
    slice (zlen (assembled s)) 4 (assembled s3) = half_bytes (0xF000 + (v / 4096) mod 2048) ++ half_bytes (0xF800 + (v / 2) mod 2048).
Proof.
  intros e fuel text s0 s words l s1 s2 s3 t0 ch r c t B SN H OS U NH NN PC NT LK.
  set (ds := [call_ref t (pc s + 4) true; call_ref t (pc s + 4) false]).
  set (b := [0; 0xF0; 0; 0xF8]).
  assert (EM : emitted (referring s ds) b s1).
  { destruct H as (_ & _ & _ & _ & X & _). rewrite (exec_opcode _ _ _ _ _ fuel l OS) in X. unfold c in X. rewrite thumb_key, U in X.
    assert (D : dget str_eqb (c_instructions (thumb e)) #"BL" = Some (OFun thumb_bl)) by (rewrite thumb_lookup; reflexivity).
    apply (proj1 (fun_result _ _ _ thumb_bl _ _ D)) in X.
    rewrite (bl_name t0 t s ch r eq_refl NH NN) in X. cbn [fst snd] in X. destruct X as (b' & E & EM). injection E as <-. exact EM. }
  assert (SR : Forall sound_ref ds).
  { constructor; [|constructor; [|constructor]]; sound; intros b0 E0; injection E0 as <-; cbn; lia. }
  assert (PL : placed (zlen b) ds).
  { split; [constructor; [|constructor; [|constructor]]; cbn; lia|]. constructor; [|constructor; [constructor|constructor]].
    constructor; [cbn; lia|constructor]. }
  destruct (thumb_fits e) as [F N].
  assert (P0 : pc s + 4 <> 0) by lia.
  destruct (linked_part c fuel text s0 s _ s1 s2 s3 b ds F N B SN H EM SR PL NT LK 0 2 0xF000 (call_ref t (pc s + 4) true) 10 0)
    as (a & v & T & A & R & OK & SL); [left; reflexivity|reflexivity|lia|cbn; lia|cbn; lia|reflexivity|reflexivity|reflexivity|lia|cbn; lia|reflexivity|].
  destruct (linked_part c fuel text s0 s _ s1 s2 s3 b ds F N B SN H EM SR PL NT LK 2 2 0xF800 (call_ref t (pc s + 4) false) 10 0)
    as (a' & v' & T' & A' & R' & OK' & SL'); [right; left; reflexivity|reflexivity|lia|cbn; lia|cbn; lia|reflexivity|reflexivity|reflexivity|lia|cbn; lia|reflexivity|].
  inversion T as [? Q _|? ? _ Q1 Q]; subst; cbn [call_ref ld_relative ld_label] in *; [contradiction|].
  inversion T' as [? Q' _|? ? _ Q1' Q']; subst; cbn [call_ref ld_relative ld_label] in *; [contradiction|].
  rewrite Q1 in Q1'. injection Q1' as <-. rewrite Q in Q'. injection Q' as <-.
  exists a, v. split; [exact Q1|]. split; [exact Q|]. split; [exact A|].
  unfold in_range in R. cbn [call_ref ld_relative ld_bits_size] in R. destruct (Z.eqb_spec (pc s + 4) 0); [contradiction|].
  change (2 ^ (23 - 1)) with 4194304 in R. split; [exact R|].
  change 4 with (2 + 2). rewrite slice_join by (try lia; apply zlen_nonneg).
  unfold filtered in SL, SL'. cbn [call_ref ld_filter] in SL, SL'. rewrite Z.add_0_r in SL.
  change (Z.of_nat 2) with 2 in SL, SL'. rewrite SL, SL'. change (big_endian (c_p c)) with false. change (2 ^ (10 - 0 + 1)) with 2048.
  change (2 ^ 0) with 1. rewrite !Z.mul_1_r. rewrite !Z.shiftr_div_pow2 by lia. change 0x7FF with (Z.ones 11). rewrite Z.land_ones by lia.
  change (2 ^ 12) with 4096. change (2 ^ 11) with 2048. change (2 ^ 1) with 2. rewrite Z.mod_mod by lia.
  pose proof (Z.mod_pos_bound (v / 4096) 2048 ltac:(lia)). pose proof (Z.mod_pos_bound (v / 2) 2048 ltac:(lia)).
  rewrite !half_bytes_eq by (change (2 ^ 16) with 65536; lia). reflexivity.
Qed.

(** A call that links leads to its label. *)
Theorem C43_call : forall e fuel text s0 s words l s1 s2 s3 t0 ch r,
  let c := thumb e in let t : str := ch :: r in
  byte_files c -> sane s0 -> passes_through c fuel text s0 s (Stmt KInstruction words l) s1 s2 ->
  opcode_stmt c s words t0 [t] -> upper t0 = #"BL" -> ch <> "#"%char ->
  not_num thumb_cfg s t 23 true -> no_select t -> no_ops t -> 0 <= pc s -> (2 | pc s) -> short_texts c s2 ->
  link c dummy_linker s2 = (s3, Ok tt) ->
  exists a h lo, address_of (labels s2) t a /\ 0 <= h < 2048 /\ 0 <= lo < 2048 /\
    slice (zlen (assembled s)) 4 (assembled s3) = half_bytes (0xF000 + h) ++ half_bytes (0xF800 + lo) /\
    call_target (pc s) h lo = a.
Proof.
  intros e fuel text s0 s words l s1 s2 s3 t0 ch r c t B SN H OS U NH NN NS NO PC EV NT LK.
  destruct (call_linked e fuel text s0 s words l s1 s2 s3 t0 ch r B SN H OS U NH NN PC NT LK) as (a & v & Q1 & Q & A & R & SL).
  assert (NE : t <> []) by discriminate.
  destruct (plain_relative _ _ _ _ _ NS NO NE Q) as (a1 & A1 & ->).
  rewrite ParseFacts.label_absolute_relative in Q1. destruct (plain_relative _ _ _ _ _ NS NO NE Q1) as (a2 & A2 & ->).
  assert (a2 = a1) by (unfold address_of in *; destruct A1 as (x1 & D1 & E1), A2 as (x2 & D2 & E2); congruence). subst a2.
  rewrite Z.sub_0_r in *. set (v := a1 - (pc s + 4)) in *.
  exists a1, ((v / 4096) mod 2048), ((v / 2) mod 2048). split; [exact A1|]. split; [apply Z.mod_pos_bound; lia|].
  split; [apply Z.mod_pos_bound; lia|]. split; [exact SL|].
  assert (EV2 : (2 | v)) by (unfold v; apply Z.divide_sub_r; [exact A|apply Z.divide_add_r; [exact EV|exists 2; reflexivity]]).
  destruct EV2 as (q & E). unfold call_target, signed11. replace a1 with (pc s + 4 + v) by (unfold v; lia). rewrite E in *.
  rewrite Z.div_mul by lia.
  replace (q * 2 / 4096) with (q / 2048) by (rewrite (Z.mul_comm q 2); change 4096 with (2 * 2048); rewrite Z.div_mul_cancel_l by lia; reflexivity).
  pose proof (Z.div_mod q 2048 ltac:(lia)) as DM. pose proof (Z.mod_pos_bound q 2048 ltac:(lia)) as MB.
  destruct (Z.lt_ge_cases q 0).
  - assert (QQ : -1024 <= q / 2048 < 0) by (split; [apply Z.div_le_lower_bound; lia|apply Z.div_lt_upper_bound; lia]).
    assert (EM : (q / 2048) mod 2048 = q / 2048 + 2048) by (symmetry; apply (Z.mod_unique_pos _ _ (-1)); lia).
    rewrite EM. destruct (Z.ltb_spec (q / 2048 + 2048) 1024); lia.
  - assert (QQ : 0 <= q / 2048 < 1024) by (split; [apply Z.div_pos; lia|apply Z.div_lt_upper_bound; lia]).
    rewrite (Z.mod_small (q / 2048)) by lia. destruct (Z.ltb_spec (q / 2048) 1024); lia.
Qed.
Print Assumptions C43_call.

(** A call to a label out of reach, or at an odd address, does not link. *)
Theorem C43_too_far : forall e fuel text s0 s words l s1 s2 t0 ch r,
  let c := thumb e in let t : str := ch :: r in
  byte_files c -> sane s0 -> passes_through c fuel text s0 s (Stmt KInstruction words l) s1 s2 ->
  opcode_stmt c s words t0 [t] -> upper t0 = #"BL" -> ch <> "#"%char ->
  not_num thumb_cfg s t 23 true -> no_select t -> no_ops t -> 0 <= pc s -> short_texts c s2 ->
  (forall a, address_of (labels s2) t a -> ~ (- 2 ^ 22 <= a - (pc s + 4) < 2 ^ 22) \/ ~ (2 | a)) ->
  snd (link c dummy_linker s2) <> Ok tt.
Proof.
  intros e fuel text s0 s words l s1 s2 t0 ch r c t B SN H OS U NH NN NS NO PC NT FAR LK.
  destruct (link c dummy_linker s2) as [s3 x] eqn:E. cbn [snd] in LK. subst x.
  destruct (call_linked e fuel text s0 s words l s1 s2 s3 t0 ch r B SN H OS U NH NN PC NT E) as (a & v & Q1 & Q & A & R & SL).
  assert (NE : t <> []) by discriminate.
  destruct (plain_relative _ _ _ _ _ NS NO NE Q) as (a1 & A1 & ->).
  rewrite ParseFacts.label_absolute_relative in Q1. destruct (plain_relative _ _ _ _ _ NS NO NE Q1) as (a2 & A2 & ->).
  assert (a2 = a1) by (unfold address_of in *; destruct A1 as (x1 & D1 & E1), A2 as (x2 & D2 & E2); congruence). subst a2.
  rewrite Z.sub_0_r in A. destruct (FAR _ A1) as [X|X]; [exact (X R)|exact (X A)].
Qed.
Print Assumptions C43_too_far.

(** The displacement 0 is taken for the name of a label. *)
Theorem C43_zero_refuted :
  snd (th_run ["bl 0"]%string) = Ok tt /\ snd (link th dummy_linker (fst (th_run ["bl 0"]%string))) <> Ok tt /\
  (exists s3, link th dummy_linker (fst (th_run ["bl 2"]%string)) = (s3, Ok tt) /\ assembled s3 = [0; 0xF0; 1; 0xF8]).
Proof. split; [vm_compute; reflexivity|]. split; [vm_compute; discriminate|linked]. Qed.

Definition c43_text : str := lines [".org 0x8000000"; "f: bx lr"; "bl f"; "bl g"; ".fill 0x2000"; "g: bx lr"]%string.
Example C43_example :
  let ss := stmts_of c43_text in
  let sa := fst (exec th 5 (firstn 4 ss) (init_st [])) in
  let xa := Stmt KInstruction [#"bl"; #"g"] 4 in
  let s2 := fst (assemble th 5 c43_text (init_st [])) in
  byte_files th /\ sane (init_st []) /\
  passes_through th 5 c43_text (init_st []) sa xa (fst (exec th 5 [xa] sa)) s2 /\
  opcode_stmt th sa [#"bl"; #"g"] #"bl" [#"g"] /\ not_num thumb_cfg sa #"g" 23 true /\ pc sa = 0x8000006 /\
  no_text s2 /\ address_of (labels s2) #"g" 0x800200A /\ call_target 0x8000006 2 0 = 0x800200A /\ call_target 0x8000002 0x7FF 0x7FD = 0x8000000 /\
  exists s3, link th dummy_linker s2 = (s3, Ok tt) /\
    firstn 10 (assembled s3) = half_bytes 0x4770 ++ half_bytes 0xF7FF ++ half_bytes (0xF800 + 0x7FD) ++ half_bytes 0xF002 ++ half_bytes 0xF800.
Proof.
  cbv zeta. split; [exact mos_files|]. split; [apply sane_init|]. split; [reached 4%nat|].
  split; [apply plain_stmt; vm_compute; reflexivity|]. split; [vm_compute; reflexivity|]. split; [vm_compute; reflexivity|].
  split; [untexted|]. split; [eexists; split; vm_compute; reflexivity|]. split; [reflexivity|]. split; [reflexivity|].
  match goal with |- exists _, ?x = _ /\ _ => exists (fst x) end.
  split; [apply fine_pair; vm_compute; reflexivity|vm_compute; reflexivity].
Qed.

(** ** C39: the Thumb processor fits the framework *)

Theorem C39_thumb : forall e, fits (thumb e) /\ handlers neat (thumb e).
Proof. exact thumb_fits. Qed.
Print Assumptions C39_thumb.
Print Assumptions C42_deviating_refuted.
Print Assumptions C42_offset_refuted.
Print Assumptions C51_backward_refuted.
Print Assumptions C43_zero_refuted.
