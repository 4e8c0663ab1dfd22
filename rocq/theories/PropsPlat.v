(** C45 Game Boy cartridges, C46 Genesis checksum, C47 PlayStation executables, C48 tiles,
    C52 Game Boy Advance checksum, C53 the command line, C54 symbol files, C55 iNES header. *)
From Coq Require Import Lia.
From Verif Require Import Py PyFacts Utils Tokenizer State Assembler SpecUtils SpecParse SpecExec SpecLink UtilsFacts Events ExecFacts
  LinkFacts SpecCpu CpuFacts SpecPlace PropsExec PropsLink PlaceFacts PropsPlace PropsFit PropsRuns Lr35902 Mos6502 Mips32 Thumb Z80 FitMips FitMos FitThumb FitLr
  LabelMono ParseFacts Platform SpecPlat PlatFacts TileFacts CartFacts Reach Demo.
Local Open Scope Z_scope.

(** ** C45: Game Boy cartridges *)

Lemma app_same : forall A (a b c d : list A), a ++ b = c ++ d -> length a = length c -> a = c /\ b = d.
Proof.
  induction a as [|x a IH]; intros b [|y c] d E L; try discriminate; [auto|].
  injection E as -> E. injection L as L. destruct (IH b c d E L) as [-> ->]. auto.
Qed.
Lemma firstn_exact : forall n (a b : bytes), length a = n -> firstn n (a ++ b) = a.
Proof. intros n a b <-. rewrite firstn_app, firstn_all, Nat.sub_diag. cbn [firstn]. apply app_nil_r. Qed.
Lemma skipn_exact : forall n (a b : bytes), length a = n -> skipn n (a ++ b) = b.
Proof. intros n a b <-. rewrite skipn_app, skipn_all, Nat.sub_diag. reflexivity. Qed.
Lemma gb_link : forall e s s', link (gameboy e) dummy_linker s = (s', Ok tt) ->
  exists s1, link (lr35902 e) dummy_linker s = (s1, Ok tt) /\ gb_fix s1 = (s', Ok tt).
Proof.
  intros e s s' H. unfold link in *. cbn [c_pre_link c_post_link c_p gameboy lr35902 mk_cfg iter] in *.
  unfold bind at 1, ret at 1 in H. unfold bind at 1, ret at 1. unfold bind at 1 in H. unfold bind at 1.
  destruct (resolve_labels lr_p dummy_linker s) as [s1 [[]|]]; [|discriminate].
  unfold bind at 1 2 in H. destruct (gb_fix s1) as [s2 [[]|]] eqn:G; [|discriminate].
  exists s1. split.
  - unfold bind, ret, dummy_linker, lk_link, get, modify. destruct s1; reflexivity.
  - unfold bind, ret, dummy_linker, lk_link, get, modify in H. injection H as <-. rewrite G. destruct s2; reflexivity.
Qed.

(** The linked image carries the header checksum the boot ROM wants, and is the processor's
    image in all but the three checksum bytes; shorter images do not link. *)
Theorem C45_header : forall e s s', link (gameboy e) dummy_linker s = (s', Ok tt) ->
  gb_header_valid (assembled s') /\ 0x150 <= zlen (assembled s') /\
  exists s1, link (lr35902 e) dummy_linker s = (s1, Ok tt) /\
    differ_at [0x14D; 0x14E; 0x14F] (assembled s1) (assembled s') /\ s' = set_assembled s1 (assembled s').
Proof.
  intros e s s' H. destruct (gb_link _ _ _ H) as (s1 & L & G). apply gb_fix_inv in G.
  destruct G as (a & m & h & x & y & b & E & LA & LM & ES & E'). cbv zeta in E'.
  set (h' := (- total m - 25) mod 256) in *. set (g := total a + total m + h' + x + y + total b) in *.
  split; [|split].
  - unfold gb_header_valid. rewrite E'. unfold slice.
    replace (Z.to_nat 0x134) with (length a) by (unfold zlen in LA; lia). rewrite skipn_app, skipn_all, Nat.sub_diag. cbn [skipn app].
    change (Z.to_nat 26) with (25 + 1)%nat. rewrite <- LM. rewrite firstn_app_2. cbn [firstn]. rewrite total_app. cbn [total].
    unfold h'. rewrite Z.add_0_r. replace (total m + (- total m - 25) mod 256 + 25) with ((- total m - 25) mod 256 + (total m + 25)) by ring.
    rewrite Z.add_mod_idemp_l by lia. replace (- total m - 25 + (total m + 25)) with 0 by ring. reflexivity.
  - rewrite E'. rewrite !zlen_app, !zlen_cons, LA. unfold zlen at 1. rewrite LM. assert (0 <= zlen b) by apply zlen_nonneg. lia.
  - exists s1. split; [exact L|]. split; [|exact ES]. rewrite E, E'.
    assert (L1 : zlen (a ++ m) = 0x14D) by (rewrite zlen_app, LA; unfold zlen; rewrite LM; reflexivity).
    pose proof (differ_refl (a ++ m ++ h :: x :: y :: b)) as D. rewrite app_assoc in D at 2. rewrite app_assoc.
    apply (differ_set _ _ (a ++ m) h h') in D. rewrite L1 in D.
    replace ((a ++ m) ++ h' :: x :: y :: b) with (((a ++ m) ++ [h']) ++ x :: y :: b) in D by (rewrite <- !app_assoc; reflexivity).
    apply (differ_set _ _ _ x (g / 256 mod 256)) in D. rewrite zlen_app, L1 in D. change (0x14D + zlen [h']) with 0x14E in D.
    replace (((a ++ m) ++ [h']) ++ g / 256 mod 256 :: y :: b) with (((a ++ m) ++ [h'; g / 256 mod 256]) ++ y :: b) in D
      by (rewrite <- !app_assoc; reflexivity).
    apply (differ_set _ _ _ y (g mod 256)) in D. rewrite zlen_app, L1 in D. change (0x14D + zlen [h'; g / 256 mod 256]) with 0x14F in D.
    rewrite <- !app_assoc in D. rewrite <- !app_assoc. cbn [app] in D.
    destruct D as [D1 D2]. split; [exact D1|]. intros i I N. apply D2; [exact I|]. cbn [In] in *. tauto.
Qed.
Print Assumptions C45_header.

Lemma slice_ext : forall A n k (l l' : list A), (forall i, (k <= i < k + n)%nat -> nth_error l i = nth_error l' i) ->
  firstn n (skipn k l) = firstn n (skipn k l').
Proof.
  intros A n k. induction k as [|k IH]; intros l l' H.
  - cbn [skipn]. revert l l' H. induction n as [|n IH]; intros l l' H; [reflexivity|].
    pose proof (H 0%nat ltac:(lia)) as H0. destruct l as [|x l], l' as [|y l']; cbn [nth_error] in H0; try discriminate; [reflexivity|].
    injection H0 as ->. cbn [firstn]. f_equal. apply IH. intros i I. apply (H (S i)). lia.
  - destruct l as [|x l], l' as [|y l']; cbn [skipn].
    + reflexivity.
    + rewrite <- (IH [] l'); [rewrite skipn_nil; reflexivity|]. intros i I. specialize (H (S i) ltac:(lia)). cbn [nth_error] in H.
      rewrite <- H. destruct i; reflexivity.
    + rewrite (IH l []); [rewrite skipn_nil; reflexivity|]. intros i I. specialize (H (S i) ltac:(lia)). cbn [nth_error] in H.
      rewrite H. destruct i; reflexivity.
    + apply IH. intros i I. apply (H (S i)). lia.
Qed.

(** A program that writes its header with .cartridge while no bounded origin is in force
    (or with the program counter at 0100) links to a cartridge that starts: entry point,
    logo and both checksums are right. *)
Theorem C45_rom : forall e fuel text s ops l s1 s2 s3, let c := gameboy e in
  passes_through c fuel text (init_st gb_defines) s (Stmt KDirective (#".cartridge" :: ops) l) s1 s2 ->
  current_org_end s = 0 \/ pc s = 0x100 ->
  short_texts c s2 -> link c dummy_linker s2 = (s3, Ok tt) ->
  gb_header_valid (assembled s3) /\ gb_global_valid (assembled s3) /\ gb_starts (assembled s3).
Proof.
  intros e fuel text s ops l s1 s2 s3 c (ss1 & ss2 & T & E1 & E2 & E3) O NT LK.
  pose proof (gb_neat e) as NE. fold c in NE.
  pose proof (gb_customs e _ settled_closed cartridge_settled (fun a z t s _ _ => fill_settled lr_p a z t s)) as CU1. fold c in CU1.
  pose proof (gb_customs e _ header_closed cartridge_header (fun a z t s A B => fill_header lr_p a z t s A B)) as CU2. fold c in CU2.
  assert (S0 : settled (init_st gb_defines)) by (destruct (sane_init gb_defines) as (A & B & _); split; auto).
  assert (S1 : settled s) by (eapply (runs_exec _ settled_closed c NE CU1); eauto).
  assert (K1 : header_kept s1).
  { unfold exec in E2. cbn [iter] in E2. unfold bind in E2.
    assert (N : names c #".cartridge" (D_custom gb_cartridge)) by reflexivity.
    destruct (statement_assemble c _ _ _ s) as [s1' [[]|]] eqn:SA; [|discriminate]. injection E2 as <-.
    rewrite (directive_run _ _ _ _ _ _ _ s (map (subst_token (defines s)) ops) N) in SA.
    - cbn [run_directive] in SA. eapply cartridge_puts; eauto.
    - apply reads_self. }
  assert (K2 : header_kept s2).
  { rewrite (assemble_exec _ _ _ _ _ T) in E3. unfold exec in E3 at 1. unfold bind at 1 in E3.
    rewrite iter_app in E3. unfold bind at 1 in E3. fold (exec c fuel ss1) in E3. rewrite E1 in E3.
    match type of T with _ = Ok (_ ++ ?x :: _) => change (x :: ss2) with ([x] ++ ss2) in E3 end. rewrite iter_app in E3. unfold bind at 1 in E3.
    match type of E2 with exec _ _ ?x _ = _ => fold (exec c fuel x) in E3 end. rewrite E2 in E3. fold (exec c fuel ss2) in E3.
    destruct (exec c fuel ss2 s1) as [s' [[]|]] eqn:E4; [|discriminate].
    assert (K' : header_kept s') by (eapply (runs_exec _ header_closed c NE CU2); eauto).
    eapply (runs_tail _ header_closed c); eauto. }
  destruct (C45_header e s2 s3 LK) as (HV & _ & _). split; [exact HV|]. clear HV.
  destruct (gb_link _ _ _ LK) as (t & LT & G). apply gb_fix_inv in G.
  destruct K2 as ((TD & RO) & (a & m & b & EA & LA & LM) & FR).
  assert (NP : no_passes (lr35902 e)) by (split; reflexivity).
  assert (SAME : forall i, (256 <= i < 256 + 80)%nat -> nth_error (assembled t) i = nth_error (assembled s2) i).
  { intros i I. apply (image_outside _ _ _ i NP RO LT). intros r ch k x IR RC IC ->. rewrite Forall_forall in FR.
    destruct (FR r IR) as [(iv & OC & L1 & L2)|L].
    - pose proof (changes_own (lr35902 e) s2 r iv ch _ _ NT IR OC L1 RC IC). lia.
    - pose proof (changes_after _ _ _ _ _ _ RC IC). lia. }
  apply slice_ext in SAME.
  assert (MID : firstn 80 (skipn 256 (assembled s2)) = (gb_entry ++ gb_logo) ++ m ++ [0; 0; 0]).
  { rewrite EA. rewrite (skipn_exact 256 a) by (unfold zlen in LA; lia).
    replace ((gb_entry ++ gb_logo) ++ m ++ [0; 0; 0] ++ b) with (((gb_entry ++ gb_logo) ++ m ++ [0; 0; 0]) ++ b) by (rewrite <- !app_assoc; reflexivity).
    apply firstn_exact. rewrite !app_length, LM. reflexivity. }
  assert (ET : assembled t = firstn 256 (assembled t) ++ ((gb_entry ++ gb_logo) ++ m ++ [0; 0; 0]) ++ skipn 80 (skipn 256 (assembled t))).
  { rewrite <- MID, <- SAME. rewrite firstn_skipn, firstn_skipn. reflexivity. }
  destruct (C22_image _ _ _ NP RO LT) as (_ & _ & _ & LEN & _).
  assert (LF : length (firstn 256 (assembled t)) = 256%nat).
  { rewrite firstn_length, LEN, EA, !app_length. unfold zlen in LA. lia. }
  set (a1 := firstn 256 (assembled t)) in *. set (b1 := skipn 80 (skipn 256 (assembled t))) in *.
  destruct G as (a0 & m0 & h & x & y & b0 & EQ & LA0 & LM0 & _ & E'). cbv zeta in E'. rewrite EQ in ET.
  replace (a1 ++ ((gb_entry ++ gb_logo) ++ m ++ [0; 0; 0]) ++ b1) with ((a1 ++ gb_entry ++ gb_logo) ++ m ++ [0; 0; 0] ++ b1) in ET
    by (rewrite <- !app_assoc; reflexivity).
  apply app_same in ET; [|rewrite !app_length, LF; unfold zlen in LA0; cbn; lia]. destruct ET as [-> ET].
  apply app_same in ET; [|congruence]. destruct ET as [-> ET]. cbn [app] in ET. injection ET as -> -> -> ->.
  rewrite E'. set (A := a1 ++ gb_entry ++ gb_logo) in *. set (h' := (- total m - 25) mod 256).
  set (g := total A + total m + h' + 0 + 0 + total b1).
  assert (L1 : zlen (A ++ m ++ [h']) = 0x14E) by (rewrite !zlen_app, LA0; unfold zlen; rewrite LM; reflexivity).
  split.
  - unfold gb_global_valid.
    replace (A ++ m ++ h' :: g / 256 mod 256 :: g mod 256 :: b1) with ((A ++ m ++ [h']) ++ g / 256 mod 256 :: g mod 256 :: b1)
      by (rewrite <- !app_assoc; reflexivity).
    rewrite (byte_mid (A ++ m ++ [h'])) by exact L1.
    replace ((A ++ m ++ [h']) ++ g / 256 mod 256 :: g mod 256 :: b1) with ((A ++ m ++ [h'; g / 256 mod 256]) ++ g mod 256 :: b1)
      by (rewrite <- !app_assoc; reflexivity).
    rewrite (byte_mid (A ++ m ++ [h'; g / 256 mod 256])) by (rewrite !zlen_app, LA0; unfold zlen; rewrite LM; reflexivity).
    rewrite two_bytes. rewrite !total_app. cbn [total]. f_equal. unfold g. ring.
  - unfold A. unfold gb_starts, slice. change (Z.to_nat 0x100) with 256%nat. change (Z.to_nat 0x104) with 260%nat.
    rewrite <- !app_assoc.
    assert (SK : forall k r, skipn (256 + k) (a1 ++ r) = skipn k r).
    { intros k r. rewrite skipn_app, LF. rewrite skipn_all2 by lia. cbn [app]. f_equal. lia. }
    split; [rewrite (SK 0%nat)|rewrite (SK 4%nat)]; reflexivity.
Qed.
Print Assumptions C45_rom.

Definition gbc := gameboy demo_env.
Definition gbc_state (text : str) : st := fst (assemble gbc 5 text (init_st gb_defines)).
Definition gbc_linked (s : st) : st := fst (link gbc dummy_linker s).
Definition c45_text : str := lines [".fill $100"; ".cartridge"; ".cartridge_title ""HELLO"""; "start: ld bc, start"; "jp start"]%string.
Example C45_example :
  let s := fst (exec gbc 5 (firstn 1 (stmts_of c45_text)) (init_st gb_defines)) in
  let x := Stmt KDirective [#".cartridge"] 2 in
  let s2 := gbc_state c45_text in
  passes_through gbc 5 c45_text (init_st gb_defines) s x (fst (exec gbc 5 [x] s)) s2 /\
  current_org_end s = 0 /\ no_text s2 /\ link gbc dummy_linker s2 = (gbc_linked s2, Ok tt) /\
  slice 0x134 29 (assembled (gbc_linked s2)) =
    [72; 69; 76; 76; 79; 0; 0; 0; 0; 0; 0; 0; 0; 0; 0; 0; 0; 0; 0; 0; 0; 0; 1; 0x33; 0; 0x3F; 0x19; 0xA7; 0x01].
Proof.
  cbv zeta. split; [reached 1%nat|]. split; [vm_compute; reflexivity|]. split; [untexted|]. split; vm_compute; reflexivity.
Qed.

(** Linking a second time spoils the global checksum: the old one is added. *)
Theorem C45_again_refuted : exists text s2 s3 s4, assemble gbc 5 text (init_st gb_defines) = (s2, Ok tt) /\
  link gbc dummy_linker s2 = (s3, Ok tt) /\ link gbc dummy_linker s3 = (s4, Ok tt) /\
  gb_global_valid (assembled s3) /\ ~ gb_global_valid (assembled s4).
Proof.
  exists c45_text, (gbc_state c45_text), (gbc_linked (gbc_state c45_text)), (gbc_linked (gbc_linked (gbc_state c45_text))).
  split; [vm_compute; reflexivity|]. split; [vm_compute; reflexivity|]. split; [vm_compute; reflexivity|].
  split; [vm_compute; reflexivity|]. intros H. vm_compute in H. discriminate.
Qed.
Print Assumptions C45_again_refuted.

(** With a bounded origin in force .cartridge may put the header somewhere else. *)
Theorem C45_place_refuted : exists text s2 s3, assemble gbc 5 text (init_st gb_defines) = (s2, Ok tt) /\ cartridge_set s2 = true /\
  link gbc dummy_linker s2 = (s3, Ok tt) /\ ~ gb_starts (assembled s3).
Proof.
  pose (t := lines [".fill $C8"; ".org $A,$1FF"; ".fill $38"; ".cartridge"; "nop"]%string).
  exists t, (gbc_state t), (gbc_linked (gbc_state t)).
  split; [vm_compute; reflexivity|]. split; [vm_compute; reflexivity|]. split; [vm_compute; reflexivity|].
  intros [H _]. vm_compute in H. discriminate.
Qed.
Print Assumptions C45_place_refuted.

(** Without .cartridge nothing checks that there is a header. *)
Theorem C45_missing_refuted : exists text s2 s3, assemble gbc 5 text (init_st gb_defines) = (s2, Ok tt) /\
  link gbc dummy_linker s2 = (s3, Ok tt) /\ ~ gb_starts (assembled s3).
Proof.
  pose (t := lines [".fill $200"]%string). exists t, (gbc_state t), (gbc_linked (gbc_state t)).
  split; [vm_compute; reflexivity|]. split; [vm_compute; reflexivity|]. intros [H _]. vm_compute in H. discriminate.
Qed.
Print Assumptions C45_missing_refuted.

(** ** C53: the command line *)

Definition with_passes (c : cfg) (pre post : list (M unit)) : cfg :=
  Cfg (c_p c) (c_env c) (c_instructions c) (c_directives c) (c_pre_link c ++ pre) (c_post_link c ++ post).

(** The destination is written exactly if all sources assemble, in order and into one
    program, and link; it then holds exactly the linked image.  No other file is written. *)
Theorem C53_written : forall c defs fuel lk pre post sources dest files r,
  cli_main c defs fuel lk pre post (sources ++ [dest]) = (files, r) ->
  (r = Ok tt <-> exists s image, builds (with_passes c pre post) defs fuel lk sources s image) /\
  (forall s image, builds (with_passes c pre post) defs fuel lk sources s image -> files = [(dest, image)]) /\
  (forall e, r = Err e -> files = []).
Proof.
  intros c defs fuel lk pre post sources dest files r H. unfold cli_main in H. rewrite rev_unit, rev_involutive in H.
  fold (with_passes c pre post) in H. set (d := with_passes c pre post) in *. unfold bind at 1 in H.
  destruct (iter (assemble_file d fuel) sources (init_st defs)) as [s1 [[]|e1]] eqn:I.
  - destruct (link d lk s1) as [s2 [[]|e2]] eqn:L; injection H as <- <-.
    + pose proof (proj1 (files_iter _ _ _ _ _) I) as AF. split; [|split; [|discriminate]].
      * split; [intros _|auto]. exists s2, (assembled s2), s1. auto.
      * intros s image (t & A & B & E). apply files_iter in A. rewrite I in A. injection A as <-. rewrite L in B. injection B as <-.
        rewrite <- E. reflexivity.
    + assert (NB : forall s image, ~ builds d defs fuel lk sources s image).
      { intros s image (t & A & B & E). apply files_iter in A. rewrite I in A. injection A as <-. rewrite L in B. discriminate. }
      split; [|split; [intros s image B; destruct (NB _ _ B)|auto]]. split; [discriminate|]. intros (s & image & B). destruct (NB _ _ B).
  - injection H as <- <-.
    assert (NB : forall s image, ~ builds d defs fuel lk sources s image).
    { intros s image (t & A & B & E). apply files_iter in A. rewrite I in A. discriminate. }
    split; [|split; [intros s image B; destruct (NB _ _ B)|auto]]. split; [discriminate|]. intros (s & image & B). destruct (NB _ _ B).
Qed.
Print Assumptions C53_written.

Definition cli_env : env :=
  Env (fun n => if str_eqb n #"a.s" then Some (lines ["start: nop"]%string)
                else if str_eqb n #"b.s" then Some (lines [".dw start+$1234"; ".db 5"]%string)
                else if str_eqb n #"bad.s" then Some (lines ["nop"; ".dw missing"]%string) else None)
      (fun _ => None) (fun _ => None) (fun _ => None) (fun _ => None).
Definition cli := mk_cfg demo_p cli_env demo_ops [] [] [].
Example C53_example :
  cli_main cli [] 5 dummy_linker [] [] [#"a.s"; #"b.s"; #"out"] = ([(#"out", [234; 0x34; 0x12; 5])], Ok tt) /\
  cli_main cli [] 5 dummy_linker [] [] [#"a.s"; #"bad.s"; #"out"] = ([], Err (AExc (UnknownLabel #"missing"))) /\
  fst (cli_main cli [] 5 dummy_linker [] [] [#"a.s"; #"c.s"; #"out"]) = [].
Proof. repeat split; vm_compute; reflexivity. Qed.

(** The scripts of Genesis, Game Boy Advance and PlayStation. *)
Lemma main_inv : forall c fuel args fix_ files, main_with c [] fuel args (finish_fixed fix_ args) = (files, Ok tt) ->
  exists source dest rest s image out, args = source :: dest :: rest /\ builds c [] fuel dummy_linker [source] s image /\
    fix_ image = Ok out /\ files = [(dest, out)].
Proof.
  intros c fuel args fix_ files H. unfold main_with in H. destruct args as [|source args]; [discriminate|].
  unfold bind at 1 in H. destruct (assemble_file c fuel source (init_st [])) as [s1 [[]|]] eqn:A; [|discriminate].
  destruct (link c dummy_linker s1) as [s2 [[]|]] eqn:L; [|discriminate]. unfold finish_fixed in H.
  destruct (fix_ (assembled s2)) as [out|] eqn:F; [|discriminate]. cbn [rbind] in H.
  destruct args as [|dest rest]; [discriminate|]. cbn [second rbind] in H. injection H as <-.
  exists source, dest, rest, s2, (assembled s2), out. split; [reflexivity|]. split; [|auto].
  exists s1. split; [|auto]. apply files_iter. cbn [iter]. unfold bind. rewrite A. reflexivity.
Qed.
Lemma main_err : forall c fuel args fix_ files e, main_with c [] fuel args (finish_fixed fix_ args) = (files, Err e) -> files = [].
Proof.
  intros c fuel args fix_ files e H. unfold main_with in H. destruct args as [|source args]; [injection H as <-; reflexivity|].
  destruct (bind _ _ _) as [s2 [[]|]]; [|injection H as <-; reflexivity]. unfold finish_fixed in H.
  destruct (rbind _ _); injection H as <-; congruence.
Qed.
Theorem C53_scripts : forall c e fuel args files er,
  (genesis_main c fuel args = (files, Err er) -> files = []) /\
  (gba_main e fuel args = (files, Err er) -> files = []) /\
  (psx_main e fuel args = (files, Err er) -> files = []).
Proof. intros. repeat split; apply main_err. Qed.
Print Assumptions C53_scripts.

Lemma builds_bytes : forall c defs fuel sources s image, fits c -> byte_files c -> builds c defs fuel dummy_linker sources s image ->
  Forall is_byte image.
Proof.
  intros c defs fuel sources s image F B (s1 & A & L & <-). apply (C39_bytes c F defs s B).
  assert (X : forall s0, history c (fun lk => lk = dummy_linker) (init_st defs) s0 -> assembled_files c fuel sources s0 s1 ->
    history c (fun lk => lk = dummy_linker) (init_st defs) s1).
  { clear. intros s0 H A. induction A as [|n t ns s0 s1 s2 _ A _ IH]; [exact H|]. apply IH.
    replace s1 with (fst (assemble c fuel t s0)) by (rewrite A; reflexivity). apply h_assemble. exact H. }
  replace s with (fst (link c dummy_linker s1)) by (rewrite L; reflexivity). apply h_link; [|reflexivity].
  apply (X (init_st defs)); [apply h_start|exact A].
Qed.

(** ** C46: Genesis checksum *)

(** What is written is the linked image but for the two bytes of the checksum, which is
    right.  The script succeeds exactly for images that are long enough and even. *)
Theorem C46_checksum : forall c fuel args files, fits c -> byte_files c -> genesis_main c fuel args = (files, Ok tt) ->
  exists source dest rest s image rom, args = source :: dest :: rest /\ builds c [] fuel dummy_linker [source] s image /\
    files = [(dest, rom)] /\ genesis_valid rom /\ differ_at [0x18E; 0x18F] image rom.
Proof.
  intros c fuel args files F B H. apply main_inv in H. destruct H as (source & dest & rest & s & image & rom & -> & BU & FX & ->).
  exists source, dest, rest, s, image, rom. split; [reflexivity|]. split; [exact BU|]. split; [reflexivity|].
  rewrite genesis_fix_eq in FX by (eapply builds_bytes; eauto). destruct (_ || _) eqn:Q; [|discriminate]. cbv zeta in FX.
  remember (word_total (skipn 0x200 image)) as h eqn:EH.
  destruct (Z.ltb_spec (zlen image) (0x18e + 2)) as [L|L]; [rewrite set_two_short in FX by lia; discriminate|].
  destruct (set_two image 0x18e (h / 256 mod 256) (h mod 256)) as (a & x & y & b & E & LA & R); [lia|lia|].
  rewrite R in FX. injection FX as <-.
  assert (D : differ_at [0x18F; 0x18E] image (a ++ h / 256 mod 256 :: h mod 256 :: b)).
  { pose proof (differ_refl image) as D. rewrite E in D at 2. apply (differ_set _ _ _ _ (h / 256 mod 256)) in D. rewrite LA in D.
    replace (a ++ h / 256 mod 256 :: y :: b) with ((a ++ [h / 256 mod 256]) ++ y :: b) in D by (rewrite <- app_assoc; reflexivity).
    apply (differ_set _ _ _ _ (h mod 256)) in D. rewrite zlen_app, LA in D. rewrite <- app_assoc in D. exact D. }
  split.
  - unfold genesis_valid. rewrite (byte_mid a) by exact LA.
    pose proof (byte_mid (a ++ [h / 256 mod 256]) (h mod 256) b 0x18F) as B2. rewrite <- app_assoc in B2. cbn [app] in B2.
    rewrite B2 by (rewrite zlen_app, LA; reflexivity). rewrite two_bytes.
    f_equal. rewrite EH, E. assert (LN : length a = 398%nat) by (unfold zlen in LA; lia).
    rewrite !skipn_app. rewrite !(skipn_all2 a) by lia. rewrite LN. reflexivity.
  - destruct D as [D1 D2]. split; [exact D1|]. intros i I N. apply D2; [exact I|]. cbn [In] in *. tauto.
Qed.
Print Assumptions C46_checksum.

Theorem C46_succeeds : forall c fuel source dest rest s image, fits c -> byte_files c ->
  builds c [] fuel dummy_linker [source] s image ->
  (exists rom, genesis_main c fuel (source :: dest :: rest) = ([(dest, rom)], Ok tt)) <->
  0x190 <= zlen image /\ (zlen image <= 0x200 \/ Z.even (zlen image) = true).
Proof.
  intros c fuel source dest rest s image F B BU. pose proof (builds_bytes _ _ _ _ _ _ F B BU) as BY.
  destruct BU as (s1 & A & L & E). apply files_iter in A. cbn [iter] in A. unfold bind in A.
  assert (M : genesis_main c fuel (source :: dest :: rest) = finish_fixed genesis_fix (source :: dest :: rest) s).
  { unfold genesis_main, main_with, bind. destruct (assemble_file c fuel source (init_st [])) as [t [[]|]]; [|discriminate].
    unfold ret in A. injection A as <-. rewrite L. reflexivity. }
  rewrite M. unfold finish_fixed. rewrite E, genesis_fix_eq by exact BY. cbv zeta.
  assert (EV : (zlen image <=? 0x200) || Z.even (zlen image) = true <-> zlen image <= 0x200 \/ Z.even (zlen image) = true).
  { rewrite orb_true_iff, Z.leb_le. tauto. }
  destruct (_ || _).
  - destruct (Z.ltb_spec (zlen image) (0x18e + 2)) as [Q|Q].
    + rewrite set_two_short by lia. cbn [rbind]. split; [intros (rom & X); discriminate|lia].
    + destruct (set_two image 0x18e (word_total (skipn 0x200 image) / 256 mod 256) (word_total (skipn 0x200 image) mod 256)) as (a & x & y & b & _ & _ & R); [lia|lia|].
      rewrite R. cbn [rbind second]. split; [intros _; split; [lia|tauto]|eauto].
  - cbn [rbind]. split; [intros (rom & X); discriminate|]. intros [_ X]. apply EV in X. discriminate.
Qed.
Print Assumptions C46_succeeds.

Definition rom_env (t : str) : env :=
  Env (fun n => if str_eqb n #"a.s" then Some t else None) (fun _ => None) (fun _ => None) (fun _ => None) (fun _ => None).
Example C46_example : exists rom,
  genesis_main (mk_cfg demo_p (rom_env (lines [".fill $200"; "nop"; ".db $12,$34,$56"]%string)) demo_ops [] [] []) 5 [#"a.s"; #"out"] = ([(#"out", rom)], Ok tt) /\
  zlen rom = 0x204 /\ slice 0x18E 2 rom = [0x1E; 0x68].
Proof. eexists. split; [vm_compute; reflexivity|]. split; vm_compute; reflexivity. Qed.

(** ** C52: Game Boy Advance checksum *)

Theorem C52_checksum : forall e fuel args files, gba_main e fuel args = (files, Ok tt) ->
  exists source dest rest s image rom, args = source :: dest :: rest /\ builds (thumb e) [] fuel dummy_linker [source] s image /\
    files = [(dest, rom)] /\ gba_valid rom /\ differ_at [0xBD] image rom.
Proof.
  intros e fuel args files H. apply main_inv in H. destruct H as (source & dest & rest & s & image & rom & -> & BU & FX & ->).
  exists source, dest, rest, s, image, rom. split; [reflexivity|]. split; [exact BU|]. split; [reflexivity|].
  apply gba_fix_inv in FX. destruct FX as (a & m & x & b & -> & LA & LM & ->). split.
  - unfold gba_valid, slice. rewrite (skipn_exact _ a) by (unfold zlen in LA; lia).
    change (Z.to_nat 30) with (29 + 1)%nat. rewrite <- LM, firstn_app_2. cbn [firstn]. rewrite total_app. cbn [total]. rewrite Z.add_0_r.
    replace (total m + (- total m - 0x19) mod 256 + 0x19) with ((- total m - 0x19) mod 256 + (total m + 0x19)) by ring.
    rewrite Z.add_mod_idemp_l by lia. replace (- total m - 0x19 + (total m + 0x19)) with 0 by ring. reflexivity.
  - assert (L1 : zlen (a ++ m) = 0xBD) by (rewrite zlen_app, LA; unfold zlen; rewrite LM; reflexivity).
    pose proof (differ_refl (a ++ m ++ x :: b)) as D. rewrite app_assoc in D at 2.
    apply (differ_set _ _ (a ++ m) x ((- total m - 25) mod 256)) in D. rewrite L1 in D.
    rewrite <- (app_assoc a m) in D. exact D.
Qed.
Print Assumptions C52_checksum.
Theorem C52_succeeds : forall e fuel source dest rest s image, builds (thumb e) [] fuel dummy_linker [source] s image -> 0xBE <= zlen image ->
  exists rom, gba_main e fuel (source :: dest :: rest) = ([(dest, rom)], Ok tt).
Proof.
  intros e fuel source dest rest s image (s1 & A & L & E) SZ. apply files_iter in A. cbn [iter] in A. unfold bind in A.
  destruct (gba_fix_ok image SZ) as (rom & R). exists rom.
  unfold gba_main, main_with, bind. destruct (assemble_file (thumb e) fuel source (init_st [])) as [t [[]|]]; [|discriminate].
  unfold ret in A. injection A as <-. rewrite L. unfold finish_fixed. rewrite E, R. reflexivity.
Qed.
Print Assumptions C52_succeeds.
Example C52_example : exists rom,
  gba_main (rom_env (lines [".fill 0xA0"; ".db ""HELLO"""; ".fill 0x1B"; "swi 1"]%string)) 5 [#"a.s"; #"out"] = ([(#"out", rom)], Ok tt) /\
  zlen rom = 0xC2 /\ byte_at rom 0xBD = 256 * 2 - 25 - (72 + 69 + 76 + 76 + 79).
Proof. eexists. split; [vm_compute; reflexivity|]. split; vm_compute; reflexivity. Qed.

(** ** C47: PlayStation executables *)

Theorem C47_file : forall e fuel args files, psx_main e fuel args = (files, Ok tt) ->
  exists source dest rest s program f, args = source :: dest :: rest /\ builds (mips32 false e) [] fuel dummy_linker [source] s program /\
    files = [(dest, f)] /\ (program <> [] -> zlen program <= 2 ^ 32 - 2048 -> psx_valid program f).
Proof.
  intros e fuel args files H. apply main_inv in H. destruct H as (source & dest & rest & s & program & f & -> & BU & FX & ->).
  exists source, dest, rest, s, program, f. split; [reflexivity|]. split; [exact BU|]. split; [reflexivity|].
  intros NE SZ. apply psx_right; auto.
Qed.
Print Assumptions C47_file.
Definition psx_env := rom_env (lines ["start: j start"; "syscall"]%string).
Example C47_example : exists f, psx_main psx_env 5 [#"a.s"; #"out"] = ([(#"out", f)], Ok tt) /\ zlen f = 4096 /\ slice 2048 9 f = [0; 0; 0; 8; 12; 0; 0; 0; 0].
Proof. eexists. split; [vm_compute; reflexivity|]. split; vm_compute; reflexivity. Qed.
(** The stack pointer belongs at 30; it is written to 20, the start of the data segment. *)
Theorem C47_stack_refuted : exists e fuel args f, psx_main e fuel args = ([(#"out", f)], Ok tt) /\
  le32_at f 0x30 = 0 /\ le32_at f 0x20 = 0x801FFFF0.
Proof. exists psx_env, 5%nat, [#"a.s"; #"out"]. eexists. split; [vm_compute; reflexivity|]. split; vm_compute; reflexivity. Qed.
Print Assumptions C47_stack_refuted.
(** Nothing assembled: the file ends in the header. *)
Theorem C47_empty_refuted : exists e fuel args f, psx_main e fuel args = ([(#"out", f)], Ok tt) /\ zlen f mod 2048 <> 0.
Proof.
  exists (rom_env []), 5%nat, [#"a.s"; #"out"]. eexists. split; [vm_compute; reflexivity|]. intros H. vm_compute in H. discriminate.
Qed.
Print Assumptions C47_empty_refuted.

(** ** C48: tiles *)

Lemma exec_custom : forall c fuel t0 ops l f s, names c t0 (D_custom f) ->
  exec c fuel [Stmt KDirective (t0 :: ops) l] s = f (t0 :: map (subst_token (defines s)) ops) s.
Proof.
  intros c fuel t0 ops l f s N. unfold exec. cbn [iter]. unfold bind. rewrite (directive_run _ _ _ _ _ _ _ s _ N (reads_self s ops)).
  cbn [run_directive]. destruct (f _ s) as [s1 [[]|]]; reflexivity.
Qed.
Lemma mult8_fine : forall w h, mult8 w h = true -> w mod 8 = 0 /\ h mod 8 = 0.
Proof. intros w h H. apply andb_prop in H. destruct H as [A B]. apply Z.eqb_eq in A, B. auto. Qed.
Lemma is128_fine : forall w h, is128 w h = true -> w mod 8 = 0 /\ h mod 8 = 0.
Proof. intros w h H. apply andb_prop in H. destruct H as [A B]. apply Z.eqb_eq in A, B. subst. auto. Qed.

(** .tiles of the Game Boy: a picture of four colours whose sides are multiples of 8 is
    turned into tiles that show it; any other is refused. *)
Theorem C48_gameboy : forall e fuel t l s t' name img, reads s [t] [t'] -> string_operand t' name -> file_image e name = Some img ->
  0 <= img_width img -> 0 <= img_height img ->
  let run := exec (gameboy e) fuel [Stmt KDirective [#".tiles"; t] l] s in
  let legal := img_indexed img = true /\ img_width img mod 8 = 0 /\ img_height img mod 8 = 0 /\ colours 3 img in
  (snd run = Ok tt <-> legal) /\
  (legal -> exists b, shows gb_pixel 16 img b /\ emitted s b (fst run)).
Proof.
  intros e fuel t l s t' name img R SO FI W0 H0 run legal.
  assert (N : names (gameboy e) #".tiles" (D_custom (gb_tiles e))) by reflexivity.
  assert (RUN : run = gb_tiles e [#".tiles"; t'] s).
  { unfold run. rewrite (exec_custom _ _ _ _ _ _ _ N). rewrite (reads_map _ _ _ R). reflexivity. }
  clearbody run. subst run. unfold gb_tiles.
  assert (OK : legal -> exists s', directive_tiles e mult8 (fun img => tiles_by_row img 3 planes2) [#".tiles"; t'] s = (s', Ok tt)).
  { intros (A & B & C & D). eapply (tiles_okay e mult8 _ gb_pixel 16 3 mult8_fine gb_right gb_okay); eauto. unfold mult8. rewrite B, C. reflexivity. }
  split; [split|].
  - destruct (directive_tiles _ _ _ _ s) as [s' [[]|]] eqn:DT; [|discriminate]. intros _.
    destruct (tiles_right e mult8 _ gb_pixel 16 3 ltac:(lia) mult8_fine gb_right gb_okay _ _ _ _ _ _ SO FI W0 H0 DT) as (A & B & C & _).
    apply mult8_fine in B. split; tauto.
  - intros L. destruct (OK L) as (s' & ->). reflexivity.
  - intros L. destruct (OK L) as (s' & DT). rewrite DT.
    destruct (tiles_right e mult8 _ gb_pixel 16 3 ltac:(lia) mult8_fine gb_right gb_okay _ _ _ _ _ _ SO FI W0 H0 DT) as (_ & _ & _ & B). exact B.
Qed.
Print Assumptions C48_gameboy.

(** .chr_pattern_table of the NES: pictures of 128 by 128. *)
Theorem C48_nes : forall e fuel t l s t' name img, reads s [t] [t'] -> string_operand t' name -> file_image e name = Some img ->
  0 <= img_width img -> 0 <= img_height img ->
  let run := exec (nes e) fuel [Stmt KDirective [#".chr_pattern_table"; t] l] s in
  let legal := img_indexed img = true /\ img_width img = 128 /\ img_height img = 128 /\ colours 3 img in
  (snd run = Ok tt <-> legal) /\
  (legal -> exists b, shows nes_pixel 16 img b /\ emitted s b (fst run)).
Proof.
  intros e fuel t l s t' name img R SO FI W0 H0 run legal.
  assert (N : names (nes e) #".chr_pattern_table" (D_custom (nes_pattern_table e))) by reflexivity.
  assert (RUN : run = nes_pattern_table e [#".chr_pattern_table"; t'] s).
  { unfold run. rewrite (exec_custom _ _ _ _ _ _ _ N). rewrite (reads_map _ _ _ R). reflexivity. }
  clearbody run. subst run. unfold nes_pattern_table.
  assert (OK : legal -> exists s', directive_tiles e is128 (fun img => tiles_by_plane img 3 planes2) [#".chr_pattern_table"; t'] s = (s', Ok tt)).
  { intros (A & B & C & D). eapply (tiles_okay e is128 _ nes_pixel 16 3 is128_fine nes_right nes_okay); eauto. unfold is128. rewrite B, C. reflexivity. }
  split; [split|].
  - destruct (directive_tiles _ _ _ _ s) as [s' [[]|]] eqn:DT; [|discriminate]. intros _.
    destruct (tiles_right e is128 _ nes_pixel 16 3 ltac:(lia) is128_fine nes_right nes_okay _ _ _ _ _ _ SO FI W0 H0 DT) as (A & B & C & _).
    apply andb_prop in B. destruct B as [B1 B2]. apply Z.eqb_eq in B1, B2. split; tauto.
  - intros L. destruct (OK L) as (s' & ->). reflexivity.
  - intros L. destruct (OK L) as (s' & DT). rewrite DT.
    destruct (tiles_right e is128 _ nes_pixel 16 3 ltac:(lia) is128_fine nes_right nes_okay _ _ _ _ _ _ SO FI W0 H0 DT) as (_ & _ & _ & B). exact B.
Qed.
Print Assumptions C48_nes.

(** .tiles of the Master System: sixteen colours. *)
Theorem C48_sms : forall e fuel t l s t' name img, reads s [t] [t'] -> string_operand t' name -> file_image e name = Some img ->
  0 <= img_width img -> 0 <= img_height img ->
  let run := exec (sms e) fuel [Stmt KDirective [#".tiles"; t] l] s in
  let legal := img_indexed img = true /\ img_width img mod 8 = 0 /\ img_height img mod 8 = 0 /\ colours 15 img in
  (snd run = Ok tt <-> legal) /\
  (legal -> exists b, shows sms_pixel 32 img b /\ emitted s b (fst run)).
Proof.
  intros e fuel t l s t' name img R SO FI W0 H0 run legal.
  assert (N : names (sms e) #".tiles" (D_custom (sms_tiles e))) by reflexivity.
  assert (RUN : run = sms_tiles e [#".tiles"; t'] s).
  { unfold run. rewrite (exec_custom _ _ _ _ _ _ _ N). rewrite (reads_map _ _ _ R). reflexivity. }
  clearbody run. subst run. unfold sms_tiles.
  assert (OK : legal -> exists s', directive_tiles e mult8 (fun img => tiles_by_row img 15 planes4) [#".tiles"; t'] s = (s', Ok tt)).
  { intros (A & B & C & D). eapply (tiles_okay e mult8 _ sms_pixel 32 15 mult8_fine sms_right sms_okay); eauto. unfold mult8. rewrite B, C. reflexivity. }
  split; [split|].
  - destruct (directive_tiles _ _ _ _ s) as [s' [[]|]] eqn:DT; [|discriminate]. intros _.
    destruct (tiles_right e mult8 _ sms_pixel 32 15 ltac:(lia) mult8_fine sms_right sms_okay _ _ _ _ _ _ SO FI W0 H0 DT) as (A & B & C & _).
    apply mult8_fine in B. split; tauto.
  - intros L. destruct (OK L) as (s' & ->). reflexivity.
  - intros L. destruct (OK L) as (s' & DT). rewrite DT.
    destruct (tiles_right e mult8 _ sms_pixel 32 15 ltac:(lia) mult8_fine sms_right sms_okay _ _ _ _ _ _ SO FI W0 H0 DT) as (_ & _ & _ & B). exact B.
Qed.
Print Assumptions C48_sms.

(** A picture of 16 by 8. *)
Definition c48_img : image := MkImage true 16 8 (fun x y => (x + y) mod 4).
Definition c48_env : env := Env (fun _ => None) (fun _ => None) (fun _ => None) (fun _ => None) (fun n => if str_eqb n #"a.png" then Some c48_img else None).
Example C48_example :
  let s := init_st gb_defines in let t := dquote :: #"a.png" ++ [dquote] in
  reads s [t] [t] /\ string_operand t #"a.png" /\
  (img_indexed c48_img = true /\ img_width c48_img mod 8 = 0 /\ img_height c48_img mod 8 = 0 /\ colours 3 c48_img) /\
  assembled (fst (exec (gameboy c48_env) 5 [Stmt KDirective [#".tiles"; t] 1] s)) =
    let tile := [0x55; 0x33; 0xAA; 0x66; 0x55; 0xCC; 0xAA; 0x99; 0x55; 0x33; 0xAA; 0x66; 0x55; 0xCC; 0xAA; 0x99] in tile ++ tile.
Proof.
  cbv zeta. split.
  { pose proof (reads_self (init_st gb_defines) [dquote :: #"a.png" ++ [dquote]]) as R.
    assert (E : map (subst_token (defines (init_st gb_defines))) [dquote :: #"a.png" ++ [dquote]] = [dquote :: #"a.png" ++ [dquote]]) by (vm_compute; reflexivity).
    rewrite E in R. exact R. }
  split; [constructor; auto|]. split; [|vm_compute; reflexivity].
  split; [reflexivity|]. split; [reflexivity|]. split; [reflexivity|]. intros x y _ _. cbn [c48_img img_pixel].
  pose proof (Z.mod_pos_bound (x + y) 4). lia.
Qed.

(** ** C54: the symbol files of the NES *)

Lemma nl_right : forall lbls lo hi, 0 <= lo -> hi <= 0xFFFF -> forall names t,
  Forall (fun n => no_select n /\ no_ops n /\ n <> []) names -> nl_lines mos6502_p lbls lo hi names = Ok t ->
  exists ls, t = concat ls /\
    Forall2 (fun n line => exists a, address_of lbls n a /\ (lo <= a <= hi -> symbol_line n a line) /\ (~ lo <= a <= hi -> line = [])) names ls.
Proof.
  intros lbls lo hi L H names. induction names as [|n names IH]; intros t P E; cbn [nl_lines] in E; [injection E as <-; exists []; split; [reflexivity|constructor]|].
  inversion P as [|? ? (P1 & P2 & P3) P4]; subst. rewrite label_absolute_relative in E.
  destruct (label_relative mos6502_p lbls n 0) as [[a|]|] eqn:LR; try discriminate. cbn [rbind] in E.
  destruct (nl_lines mos6502_p lbls lo hi names) as [r|] eqn:NL; [|discriminate]. cbn [rbind] in E. injection E as <-.
  destruct (IH r P4 eq_refl) as (ls & -> & F). apply plain_relative in LR; auto. destruct LR as (a' & AO & EA). rewrite Z.sub_0_r in EA. subst a'.
  exists ((if (lo <=? a) && (a <=? hi) then #"$" ++ format_04X a ++ #"#" ++ n ++ #"#" ++ [ascii_of_N 13; ascii_of_N 10] else []) :: ls).
  split; [reflexivity|]. constructor; [|exact F]. exists a. split; [exact AO|]. split.
  - intros A. replace ((lo <=? a) && (a <=? hi)) with true by (symmetry; apply andb_true_intro; split; lia).
    destruct (hex_04 a ltac:(lia)) as [X1 X2]. exists (format_04X a). auto.
  - intros A. destruct (Z.leb_spec lo a), (Z.leb_spec a hi); try reflexivity. lia.
Qed.
Lemma encode_map : forall t b, encode_ascii t = Ok b -> b = map ord t.
Proof.
  induction t as [|x t IH]; intros b H; cbn [encode_ascii] in H; [injection H as <-; reflexivity|].
  destruct (ord x <? 128); [|discriminate]. destruct (encode_ascii t); [|discriminate]. cbn [rbind] in H. injection H as <-. cbn [map]. f_equal. auto.
Qed.

(** A label is listed in a symbol file, with its address, exactly if the address lies in the
    memory the file is for. *)
Definition lists (s : st) (lo hi : Z) (file : bytes) : Prop :=
  exists ls, file = map ord (concat ls) /\
    Forall2 (fun n line => exists a, address_of (labels s) n a /\ (lo <= a <= hi -> symbol_line n a line) /\ (~ lo <= a <= hi -> line = []))
      (map fst (labels s)) ls.
Theorem C54_symbols : forall e fuel args files, nes_main e fuel args = (files, Ok tt) ->
  exists source dest rest s image rom ram, args = source :: dest :: rest /\
    builds (nes e) nes_defines fuel dummy_linker [source] s image /\
    files = [(dest, image); (dest ++ #".0.nl", rom); (dest ++ #".ram.nl", ram)] /\
    (Forall (fun n => no_select n /\ no_ops n /\ n <> []) (map fst (labels s)) ->
     lists s 0x8000 0xFFFF rom /\ lists s 0 0x7FF ram).
Proof.
  intros e fuel args files H. unfold nes_main, main_with in H. destruct args as [|source args]; [discriminate|].
  unfold bind at 1 in H. destruct (assemble_file _ fuel source _) as [s1 [[]|]] eqn:A; [|discriminate].
  destruct (link (nes e) dummy_linker s1) as [s2 [[]|]] eqn:L; [|discriminate].
  destruct args as [|dest rest]; [discriminate|]. cbn [second] in H.
  destruct (nl_file s2 0x8000 0xFFFF) as [rom|] eqn:N1; [|discriminate]. destruct (nl_file s2 0 0x7FF) as [ram|] eqn:N2; [|discriminate].
  injection H as <-. exists source, dest, rest, s2, (assembled s2), rom, ram. split; [reflexivity|].
  split; [exists s1; split; [|auto]; apply files_iter; cbn [iter]; unfold bind; rewrite A; reflexivity|]. split; [reflexivity|].
  intros P. unfold nl_file in N1, N2. unfold lists.
  destruct (nl_lines mos6502_p (labels s2) 0x8000 0xFFFF _) as [t1|] eqn:T1; [|discriminate]. cbn [rbind] in N1.
  destruct (nl_lines mos6502_p (labels s2) 0 0x7FF _) as [t2|] eqn:T2; [|discriminate]. cbn [rbind] in N2.
  apply encode_map in N1, N2. subst rom ram.
  apply nl_right in T1; [|lia|lia|exact P]. apply nl_right in T2; [|lia|lia|exact P].
  destruct T1 as (l1 & -> & F1). destruct T2 as (l2 & -> & F2). split; eauto.
Qed.
Print Assumptions C54_symbols.
Example C54_example : exists image,
  nes_main (rom_env (lines ["zp:"; ".org $C0DE"; "start: jmp start"]%string)) 5 [#"a.s"; #"o"] =
    ([(#"o", image); (#"o.0.nl", map ord (#"$C0DE#start#" ++ [ascii_of_N 13; ascii_of_N 10]));
      (#"o.ram.nl", map ord (#"$0000#zp#" ++ [ascii_of_N 13; ascii_of_N 10]))], Ok tt).
Proof. eexists. vm_compute. reflexivity. Qed.

(** ** C55: the header of NES files *)

(** .cartridge writes the sixteen bytes of an iNES header, at the start of the output only. *)
Theorem C55_header : forall e fuel ops l s,
  let run := exec (nes e) fuel [Stmt KDirective (#".cartridge" :: ops) l] s in
  (assembled s <> [] -> run = (s, Err (AExc InvalidCartridgeHeaderOffset))) /\
  (assembled s = [] -> exists s', run = (s', Ok tt) /\ cartridge_set s' = true /\ pc s' = pc s + 16 /\
     assembled s' = [78; 69; 83; 0x1A; 2; 0; 0; 0; 0; 0; 0; 0; 0; 0; 0; 0]).
Proof.
  intros e fuel ops l s run. assert (N : names (nes e) #".cartridge" (D_custom nes_cartridge)) by reflexivity.
  unfold run. rewrite (exec_custom _ _ _ _ _ _ _ N). unfold nes_cartridge, bind, get.
  destruct (Z.eqb_spec (zlen (assembled s)) 0) as [L|L]; cbn [negb]; split; intros E.
  - destruct (assembled s) as [|x o]; [congruence|]. rewrite zlen_cons in L. assert (0 <= zlen o) by apply zlen_nonneg. lia.
  - eexists. split; [reflexivity|]. split; [reflexivity|]. split.
    + transitivity (current_org s + (org_counter s + 16)); [reflexivity|unfold pc; lia].
    + transitivity (assembled s ++ nes_header); [reflexivity|]. rewrite E. reflexivity.
  - reflexivity.
  - exfalso. apply L. rewrite E. reflexivity.
Qed.
Print Assumptions C55_header.
(** The number of PRG banks belongs in byte 4, that of CHR banks in byte 5: the directives
    write the bytes after. *)
Theorem C55_banks_refuted : exists text s, assemble (nes demo_env) 5 text (init_st nes_defines) = (s, Ok tt) /\
  text = lines [".cartridge"; ".cartridge_prg_roms 4"; ".cartridge_chr_roms 3"]%string /\
  slice 4 3 (assembled s) = [2; 4; 3].
Proof. eexists. eexists. split; [|split; [reflexivity|]]; [vm_compute; reflexivity|vm_compute; reflexivity]. Qed.
Print Assumptions C55_banks_refuted.
Example C55_example : exists s, exec (nes demo_env) 5 [Stmt KDirective [#".cartridge"] 1] (init_st nes_defines) = (s, Ok tt) /\
  exec (nes demo_env) 5 [Stmt KDirective [#".cartridge"] 2] s = (s, Err (AExc InvalidCartridgeHeaderOffset)).
Proof. eexists. split; vm_compute; reflexivity. Qed.

(** ** C57: the consoles have the instructions of their processors *)

Lemma same_instructions : forall c c' fuel words t0 ops l s, c_p c = c_p c' -> c_instructions c = c_instructions c' ->
  opcode_stmt c s words t0 ops ->
  exec c fuel [Stmt KInstruction words l] s = exec c' fuel [Stmt KInstruction words l] s /\ opcode_stmt c' s words t0 ops.
Proof.
  intros c c' fuel words t0 ops l s P I OS.
  assert (K : op_key c t0 = op_key c' t0) by (unfold op_key; rewrite P; reflexivity).
  assert (OS' : opcode_stmt c' s words t0 ops) by (destruct OS as (A & B & C); rewrite K in C; split; [|split]; assumption).
  split; [|exact OS']. rewrite (exec_opcode _ _ _ _ _ _ _ OS), (exec_opcode _ _ _ _ _ _ _ OS'). rewrite K.
  unfold opcode_assemble, append_assembled_bytes, call_handler. rewrite I. reflexivity.
Qed.
(** So everything said of single instructions of the processors holds for the consoles. *)
Theorem C57_gameboy : forall e fuel words t0 ops l s, opcode_stmt (gameboy e) s words t0 ops ->
  exec (gameboy e) fuel [Stmt KInstruction words l] s = exec (lr35902 e) fuel [Stmt KInstruction words l] s /\
  opcode_stmt (lr35902 e) s words t0 ops.
Proof. intros. apply same_instructions; [reflexivity|reflexivity|assumption]. Qed.
Theorem C57_nes : forall e fuel words t0 ops l s, opcode_stmt (nes e) s words t0 ops ->
  exec (nes e) fuel [Stmt KInstruction words l] s = exec (mos6502 e) fuel [Stmt KInstruction words l] s /\
  opcode_stmt (mos6502 e) s words t0 ops.
Proof. intros. apply same_instructions; [reflexivity|reflexivity|assumption]. Qed.
Theorem C57_sms : forall e fuel words t0 ops l s, opcode_stmt (sms e) s words t0 ops ->
  exec (sms e) fuel [Stmt KInstruction words l] s = exec (z80 e) fuel [Stmt KInstruction words l] s /\
  opcode_stmt (z80 e) s words t0 ops.
Proof. intros. apply same_instructions; [reflexivity|reflexivity|assumption]. Qed.
Print Assumptions C57_gameboy.
Print Assumptions C57_nes.
Print Assumptions C57_sms.
(** The memory maps of the consoles, by their manuals. *)
Definition in_row (base : Z) (l : list str) : list (str * Z) := combine l (map (fun i => base + Z.of_nat i) (seq 0 (length l))).
Definition gb_map : list (str * Z) :=
  in_row 0xFF40 [#"LCDC"; #"STAT"; #"SCY"; #"SCX"; #"LY"; #"LYC"] ++ in_row 0xFF4A [#"WY"; #"WX"] ++
  [(#"VRAM", 0x8000); (#"TMAP0", 0x8000 + 6 * 1024); (#"TMAP1", 0x8000 + 7 * 1024); (#"WRAM", 0xC000);
   (#"WRAM0", 0xC000); (#"WRAM1", 0xC000 + 4096); (#"HRAM", 0xFF80)].
Definition nes_map : list (str * Z) :=
  in_row 0x2000 [#"PPUCTRL"; #"PPUMASK"; #"PPUSTATUS"; #"OAMADDR"; #"OAMDATA"; #"PPUSCROLL"; #"PPUADDR"; #"PPUDATA"] ++ [(#"OAMDMA", 0x4014)].
Definition sms_map : list (str * Z) :=
  in_row 0xDC [#"JOY1"; #"JOY2"] ++ in_row 0xBE [#"VDPDATA"; #"VDPADDR"] ++
  [(#"RAM", 0xC000); (#"PSG", 0x7F); (#"CMD_VRAM", 64 * 1); (#"CMD_REG", 64 * 2); (#"CMD_CRAM", 64 * 3)].
Definition machine (p : pcfg) (defs : list (str * str)) (m : list (str * Z)) : Prop :=
  forall n, (forall a, In (n, a) m -> exists t, reads (init_st defs) [n] [t] /\ forall lbls bits, 8 <= bits -> a < 2 ^ bits -> parse_integer p lbls t bits false = Ok (Some a)) /\
    (In n (map fst defs) -> In n (map fst m)).
Definition machine_check (p : pcfg) (defs : list (str * str)) (m : list (str * Z)) : bool :=
  forallb (fun x => match get_math_formula (subst_token defs (fst x)) with
    | (tok, [], []) => match internal_parse_integer p tok with Ok (Some v, false) => (v =? snd x) && (0 <=? v) | _ => false end
    | _ => false end) m &&
  forallb (fun x => str_in (fst x) (map fst m)) defs.
Lemma machine_checked : forall p defs m, machine_check p defs m = true -> machine p defs m.
Proof.
  intros p defs m H n. apply andb_prop in H. destruct H as [H1 H2]. rewrite forallb_forall in H1, H2. split.
  - intros a I. specialize (H1 _ I). cbn [fst snd] in H1. exists (subst_token defs n). split; [exact (reads_self (init_st defs) [n])|]. intros lbls bits B A.
    unfold parse_integer, parse_integer_with. destruct (get_math_formula (subst_token defs n)) as [[tok [|]] [|]]; try discriminate H1.
    destruct (internal_parse_integer p tok) as [[[v|] []]|x]; try discriminate H1. apply andb_prop in H1. destruct H1 as [V P]. apply Z.eqb_eq in V. apply Z.leb_le in P. subst v.
    cbn [rbind]. change (apply_math_formula p lbls math_fuel [] [] a) with (Ok a). cbn [rbind]. unfold check_integer.
    replace (a <? 0) with false by (symmetry; apply Z.ltb_ge; lia). cbn [negb andb rbind]. replace (in_bit_range a bits) with true by (symmetry; apply in_bit_range_iff; lia). reflexivity.
  - intros I. apply in_map_iff in I. destruct I as ([n' t] & <- & I). specialize (H2 _ I). apply str_in_In in H2. exact H2.
Qed.
(** The names of the machine, and no others, are read as the addresses of the map. *)
Theorem C57_registers : machine lr_p gb_defines gb_map /\ machine mos6502_p nes_defines nes_map /\ machine z80_p sms_defines sms_map.
Proof. split; [|split]; apply machine_checked; vm_compute; reflexivity. Qed.
Print Assumptions C57_registers.
(** The names of the machine are replaced by their addresses before the instruction is read. *)
Example C57_example :
  let s := init_st sms_defines in
  opcode_stmt (sms demo_env) s [#"out"; #"("; #"VDPADDR"; #")"; #"a"] #"out" [#"("; #"$BF"; #")"; #"a"] /\
  assembled (fst (exec (sms demo_env) 5 [Stmt KInstruction [#"out"; #"("; #"VDPADDR"; #")"; #"a"] 1] s)) = [0xD3; 0xBF].
Proof.
  cbv zeta. split; [|vm_compute; reflexivity]. split; [reflexivity|]. split; [|reflexivity].
  pose proof (reads_self (init_st sms_defines) [#"out"; #"("; #"VDPADDR"; #")"; #"a"]) as R.
  assert (E : map (subst_token (defines (init_st sms_defines))) [#"out"; #"("; #"VDPADDR"; #")"; #"a"] = [#"out"; #"("; #"$BF"; #")"; #"a"]) by (vm_compute; reflexivity).
  rewrite E in R. exact R.
Qed.
