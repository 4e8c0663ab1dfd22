(** Property C77: the decimal text of a name is filled in by linking. *)
From Coq Require Import Lia.
From Verif Require Import Py PyFacts Utils Tokenizer State Assembler SpecUtils UtilsFacts SpecTok SpecSubst SubstFacts SpecParse ParseFacts
  SpecExec SpecLink SpecFiles Events ExecFacts DigitFacts LabelMono SpecCpu SpecPlace PlaceFacts Mos6502 FitMos Demo Reach PropsUtils PropsParse
  PropsExec PropsData PropsLink PropsRuns PropsPlace PropsFiles PropsMosLink CasesText.
Local Open Scope Z_scope.

Lemma slice_app : forall A (l : list A) a n m, 0 <= a -> 0 <= n -> 0 <= m ->
  slice a (n + m) l = slice a n l ++ slice (a + n) m l.
Proof.
  intros A l a n m A0 N0 M0. unfold slice. rewrite !Z2Nat.inj_add by lia.
  replace (skipn (Z.to_nat a + Z.to_nat n) l) with (skipn (Z.to_nat n) (skipn (Z.to_nat a) l)) by (rewrite skipn_add; reflexivity).
  generalize (skipn (Z.to_nat a) l) as k. generalize (Z.to_nat n) as x. generalize (Z.to_nat m) as y. clear.
  intros y x. induction x as [|x IH]; intros k; [reflexivity|]. destruct k as [|e k]; [cbn; rewrite firstn_nil; reflexivity|].
  cbn [plus firstn skipn app]. f_equal. apply IH.
Qed.

(** .db_to_ascii and .dw_to_ascii of a name: once linked, its address in decimal, padded
    with zeros, and after it the NUL of the variants with z. *)
Theorem C77_text : forall c fuel text s0 s t0 d size w z op t l s1 s2 s3,
  fits c -> handlers neat c -> byte_files c -> sane s0 ->
  passes_through c fuel text s0 s (Stmt KDirective [t0; op] l) s1 s2 ->
  names c t0 d -> text_width d size w z -> reads s [op] [t] -> unquoted t -> not_num (c_p c) s t (8 * Z.of_nat size) false ->
  no_select t -> no_ops t -> t <> [] -> short_texts c s2 -> link c dummy_linker s2 = (s3, Ok tt) ->
  exists a txt, address_of (labels s2) t a /\
    slice (zlen (assembled s)) (Z.of_nat w + zlen z) (assembled s3) = txt ++ z /\
    length txt = w /\ Forall ascii_digit txt /\ decimal txt = a.
Proof.
  intros c fuel text s0 s t0 d size w z op t l s1 s2 s3 F N B SN H NM TW RD UQ NN NS NO NE ST LK.
  assert (W : (1 <= w)%nat) by (destruct TW; lia).
  assert (SN2 : sane s2). { destruct H as (? & ? & _ & _ & _ & X). eapply C49_tidy; eauto. }
  destruct SN2 as (T2 & R2 & Y2).
  destruct (through_good _ _ _ _ _ _ _ _ F N H) as (G1 & G2 & G3). destruct SN as (T0 & RO0 & BY0).
  destruct (G1 T0) as (T1 & _ & _ & _ & RO1).
  destruct (G2 T1) as (T1' & _ & (lr & LR & LF) & _ & _).
  destruct (G3 T1') as (_ & (out & A) & (r2 & L2 & F2) & _).
  assert (E2 : exists r, ld_label r = t /\ ld_relative r = 0 /\ ld_hook r = Some (to_str_hook w) /\
    emitted (set_labels_addresses s (dset Z.eqb (labels_addresses s) (zlen (assembled s)) r)) (repeat 0 w ++ z) s1).
  { destruct H as (ss1 & ss2 & T & X1 & X2 & X3). unfold exec in X2. cbn [iter] in X2. unfold bind in X2.
    match type of X2 with context [statement_assemble c fuel ?m _ s] =>
      destruct (C75_name c fuel m t0 d size w z op t l s NM TW RD UQ NN) as (r & s' & SA & P1 & P2 & P3 & P4) end.
    rewrite SA in X2. injection X2 as <-. eauto. }
  destruct E2 as (r & LB & RL & HK & EM). set (a := zlen (assembled s)) in *.
  assert (LA1 : labels_addresses s1 = dset Z.eqb (labels_addresses s) a r) by (rewrite EM; reflexivity).
  assert (AS1 : assembled s1 = assembled s ++ repeat 0 w ++ z) by (rewrite EM; reflexivity).
  assert (OLD : forall q, In q (labels_addresses s) -> exists iv, occupies q iv /\ fst iv < snd iv <= a).
  { clear - T1. destruct T1 as (ivs & TF & TI & _). intros q I. fold a in TI. clearbody a. induction TF as [|q' iv l ivs O TF IH]; [contradiction|].
    inversion TI; subst. destruct I as [->|I]; [exists iv; split; [exact O|lia]|auto]. }
  rewrite dset_app in LA1.
  2: { intros I. apply in_map_iff in I. destruct I as (q & E & I). destruct (OLD q I) as (iv & (O1 & _) & L1). lia. }
  assert (A0 : 0 <= a) by apply zlen_nonneg.
  assert (IN : In (a, r) (labels_addresses s2)) by (rewrite L2, LA1; apply in_or_app; left; apply in_or_app; right; left; reflexivity).
  assert (TK : takes r (Z.of_nat w)) by (apply t_text; exact HK).
  destruct (tidy_alone c s2 a r (Z.of_nat w) T2 ST IN TK) as (l1 & l2 & RE & DJ).
  assert (NP : no_passes c) by apply F.
  destruct (C22_image c s2 s3 NP R2 LK) as (chs & FC & _ & LEN & _).
  assert (X : exists ch, ref_changes (c_p c) (labels s2) (a, r) ch).
  { clear - FC IN. induction FC; [contradiction|]. destruct IN as [->|I]; eauto. }
  destruct X as [ch CH]. inversion CH as [? ? v HK' V | ? ? w' abs v HK' TG]; subst; [congruence|].
  pose proof (ST _ _ _ _ _ IN HK TG) as VB.
  destruct (C22_text c s2 s3 l1 a r l2 w abs v NP R2 RE HK W TG VB DJ LK) as (D1 & D2 & D3).
  assert (AD : address_of (labels s2) (ld_label r) v).
  { inversion TG as [x R0 L0|x y R0]; [|congruence]. subst. rewrite label_absolute_relative in L0.
    apply plain_relative in L0; auto. destruct L0 as (y & X1 & X2). match goal with |- address_of _ _ ?g => replace g with y by lia end. exact X1. }
  exists v, (slice a (Z.of_nat w) (assembled s3)). split; [exact AD|]. split; [|auto].
  rewrite slice_app by (try apply zlen_nonneg; lia). f_equal.
  apply nth_error_eq.
  - apply Nat2Z.inj. change (Z.of_nat (length (slice (a + Z.of_nat w) (zlen z) (assembled s3)))) with (zlen (slice (a + Z.of_nat w) (zlen z) (assembled s3))).
    rewrite slice_length; [reflexivity|lia|apply zlen_nonneg|]. unfold zlen at 2. rewrite LEN, A, AS1, !app_length, repeat_length. unfold a, zlen. lia.
  - intros i I. assert (IL : (i < length z)%nat).
    { unfold slice in I. rewrite firstn_length in I. unfold zlen in I. lia. }
    rewrite nth_slice; [|lia|unfold zlen; lia].
    rewrite (image_outside c s2 s3); auto.
    + rewrite A, AS1. rewrite nth_error_app1 by (rewrite !app_length, repeat_length; unfold a, zlen; lia).
      rewrite nth_error_app2 by (unfold a, zlen; lia). rewrite nth_error_app2 by (rewrite repeat_length; unfold a, zlen; lia).
      f_equal. rewrite repeat_length. unfold a, zlen. lia.
    + intros q chq k y J RC IC ->. pose proof J as J0. rewrite L2, LA1 in J. apply in_app_or in J. destruct J as [J|J].
      * apply in_app_or in J. destruct J as [J|[<-|[]]].
        -- destruct (OLD q J) as (iv & O & N1 & N2). pose proof (changes_own c s2 q iv chq _ y ST J0 O N1 RC IC). lia.
        -- assert (O : occupies (a, r) (a, a + Z.of_nat w)) by (split; [reflexivity|]; cbn [fst snd]; replace (a + Z.of_nat w - a) with (Z.of_nat w) by lia; exact TK).
           pose proof (changes_own c s2 _ _ chq _ y ST J0 O ltac:(cbn [fst snd]; lia) RC IC). cbn [fst snd] in *. lia.
      * rewrite Forall_forall in F2. apply F2 in J. pose proof (changes_after _ _ _ _ _ _ RC IC).
        rewrite AS1, !zlen_app in J. fold a in J. unfold zlen in J at 1 2. rewrite repeat_length in J. lia.
Qed.
Print Assumptions C77_text.

(** A program with a text reference between instructions that refer to names. *)
Definition c77_text : str := lines [".org $C000"; "x: jmp y"; ".dw_to_asciiz y"; "y: lda x"]%string.
Definition c77_s : st := fst (exec (mos6502 demo_env) 5 (firstn 3 (stmts_of c77_text)) (init_st [])).
Definition c77_x : stmt := Stmt KDirective [#".dw_to_asciiz"; #"y"] 3.
Definition c77_end : st := fst (assemble (mos6502 demo_env) 5 c77_text (init_st [])).
Lemma c77_refs : labels_addresses c77_end =
  [(1, ref #"y" 2 16 1 0); (3, LabelData #"y" 2 16 0 0 1 None None (Some (to_str_hook 5))); (10, ref #"x" 2 16 1 0)].
Proof. reflexivity. Qed.
Lemma c77_y : label_absolute (c_p (mos6502 demo_env)) (labels c77_end) #"y" = Ok (Some 0xC009).
Proof. vm_compute. reflexivity. Qed.
Lemma c77_short : short_texts (mos6502 demo_env) c77_end.
Proof.
  intros a d w abs v I HK T. rewrite c77_refs in I.
  assert (X : ld_hook d = None \/ d = LabelData #"y" 2 16 0 0 1 None None (Some (to_str_hook 5))).
  { destruct I as [I|[I|[I|[]]]]; apply (f_equal snd) in I; cbn [snd] in I; subst d; auto. }
  destruct X as [X|X]; [congruence|]. subst d. cbn [ld_hook] in HK. injection HK as HK. apply hook_width in HK.
  inversion T as [x R0 L0 E1 E2|x y R0 L0]; [|exfalso; apply R0; reflexivity]. cbn [ld_label] in L0. rewrite c77_y in L0.
  assert (V : v = 0xC009) by (apply (f_equal (fun r => match r with Ok (Some q) => q | _ => 0 end)) in L0; lia).
  assert (W : w = 5%nat) by lia. subst w. change (10 ^ Z.of_nat 5) with 100000. lia.
Qed.
Example C77_text_case := C77_text (mos6502 demo_env) 5 c77_text (init_st []) c77_s #".dw_to_asciiz" D_dw_to_asciiz 2 5 [0] #"y" #"y" 3
  (fst (exec (mos6502 demo_env) 5 [c77_x] c77_s)) c77_end (fst (link (mos6502 demo_env) dummy_linker c77_end))
  (proj1 (mos_fits demo_env)) (proj2 (mos_fits demo_env)) mos_files (sane_init [])
  ltac:(reached 3%nat) ltac:(reflexivity) xw_dwz (reads_self _ _)
  ltac:(exists "y"%char, []; repeat split; discriminate) ltac:(vm_compute; reflexivity) ltac:(no_select_in) ltac:(no_ops_in) ltac:(discriminate)
  c77_short ltac:(apply fine_pair; vm_compute; reflexivity).
Example C77_example : assembled (fst (link (mos6502 demo_env) dummy_linker c77_end)) =
  [0x4C; 0x09; 0xC0; 52; 57; 49; 54; 49; 0; 0xAD; 0x00; 0xC0].
Proof. vm_compute. reflexivity. Qed.
