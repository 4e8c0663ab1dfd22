(** Values of 8086 instructions in the linked image. *)
From Coq Require Import Lia.
From Verif Require Import Py PyFacts Utils Tokenizer State Assembler SpecUtils SpecParse SpecExec SpecLink
  UtilsFacts SpecCpu SpecPlace CpuFacts LabelMono PropsPlace SpecI86.
Local Open Scope Z_scope.

Definition width (f : fld) : Z := match f with Imm8 | Jump8 => 1 | _ => 2 end.
Lemma stored86_len : forall p s off f t b ds, stored86 p s off f t b ds -> zlen b = width f.
Proof. intros p s off f t b ds []; reflexivity. Qed.
Lemma laid86_refs : forall p s pre v b ds, laid86 p s pre v b ds -> Forall sound_ref ds /\ placed (zlen b) ds.
Proof.
  intros p s pre v b ds []; [split; [constructor|split; constructor]|].
  assert (0 <= zlen pre) by apply zlen_nonneg. pose proof (stored86_len _ _ _ _ _ _ _ H) as L. rewrite zlen_app.
  destruct H; cbn [width] in L; (split; [|split]); repeat constructor; cbn [ref ld_size ld_bits_size ld_alignment ld_offset ld_bits]; try lia; try discriminate.
Qed.

Section Link.
  Context (c : cfg) (fuel : nat) (text : str) (s0 s : st) (x : stmt) (s1 s2 s3 : st) (b : bytes) (ds : list labeldata)
    (F : fits c) (N : handlers neat c) (B : byte_files c) (SN : sane s0)
    (H : passes_through c fuel text s0 s x s1 s2) (E : emitted (referring s ds) b s1) (NT : short_texts c s2)
    (LK : link c dummy_linker s2 = (s3, Ok tt)) (LE : big_endian (c_p c) = false).

  Lemma laid86_linked : forall pre v, laid86 (c_p c) s pre v b ds -> 0 <= pc s ->
    exists b', final86 (c_p c) s s2 pre v b' /\ slice (zlen (assembled s)) (zlen b') (assembled s3) = b'.
  Proof.
    intros pre v LO PC. destruct (laid86_refs _ _ _ _ _ _ LO) as [SR PL].
    assert (NONE : ds = [] -> slice (zlen (assembled s)) (zlen b) (assembled s3) = b)
      by (apply (linked_none c fuel text s0 s _ s1 s2 s3 b ds F N B SN H E SR PL NT LK)).
    inversion LO as [E1 E2 E3|f t bo ds' ST E1 E2 E3]; subst v b; [subst ds|subst ds'].
    { exists pre. split; [constructor|]. apply NONE. reflexivity. }
    assert (0 <= zlen pre) as P0 by apply zlen_nonneg.
    assert (ONE : forall n d suf, ds = [d] -> bo = repeat 0 n ++ suf -> ld_offset d = zlen pre -> ld_size d = Z.of_nat n ->
      exists v, field_value (c_p c) (labels s2) d v /\
        slice (zlen (assembled s)) (zlen (pre ++ bo)) (assembled s3) = pre ++ field_of false n v ++ suf).
    { intros n d suf D Z O S'. subst bo. rewrite <- LE.
      apply (linked_one c fuel text s0 s _ s1 s2 s3 _ _ F N B SN H E SR PL NT LK pre n suf d D eq_refl O S'). }
    assert (NUM : ds = [] -> exists b', final86 (c_p c) s s2 pre (Some (f, t)) b' /\ slice (zlen (assembled s)) (zlen b') (assembled s3) = b').
    { intros D. exists (pre ++ bo). split; [|apply NONE; exact D]. constructor. apply e_number. rewrite D in ST. exact ST. }
    assert (LEN : forall bo', zlen bo' = zlen bo -> zlen (pre ++ bo') = zlen (pre ++ bo)).
    { intros bo' L. rewrite !zlen_app. lia. }
    assert (ABS : forall size bits off v, field_value (c_p c) (labels s2) (ref t size bits off 0) v ->
      label_absolute (c_p c) (labels s2) t = Ok (Some v) /\ 0 <= v < 2 ^ bits).
    { intros size bits off v (a & u & T & _ & RG & EC). unfold in_range in RG. cbn [ref ld_relative ld_bits_size] in RG.
      change (0 =? 0) with true in RG. unfold encoded in EC. cbn [ref ld_filter ld_bits] in EC. cbv zeta in EC. subst u.
      inversion T as [? Q1 Q|? ? Q]; subst; cbn [ref ld_relative ld_label] in *; [auto|lia]. }
    assert (REL : forall size bits off r v, 0 < r -> 1 <= bits -> field_value (c_p c) (labels s2) (ref t size bits off r) v ->
      label_relative (c_p c) (labels s2) t r = Ok (Some v) /\ - 2 ^ (bits - 1) <= v < 2 ^ (bits - 1)).
    { intros size bits off r v R0 B1 (a & u & T & _ & RG & EC). unfold in_range in RG. cbn [ref ld_relative ld_bits_size] in RG.
      unfold encoded in EC. cbn [ref ld_filter ld_bits] in EC. cbv zeta in EC. subst u.
      replace (r =? 0) with false in RG by lia.
      inversion T as [? Q _|? ? _ _ Q]; subst; cbn [ref ld_relative ld_label] in *; [lia|]. split; [exact Q|lia]. }
    assert (F1 : forall v, field_of false 1 v = [v mod 256]).
    { intros v. unfold field_of, byte_of. cbn [seq map]. change (256 ^ Z.of_nat 0) with 1. rewrite Z.div_1_r. reflexivity. }
    assert (F2 : forall v, field_of false 2 v = [v mod 256; v / 256 mod 256]).
    { intros v. unfold field_of, byte_of. cbn [seq map]. change (256 ^ Z.of_nat 0) with 1. change (256 ^ Z.of_nat 1) with 256. rewrite Z.div_1_r. reflexivity. }
    assert (F2' : forall v, 0 <= v < 65536 -> field_of false 2 v = [v mod 256; v / 256]).
    { intros v RG. rewrite F2. rewrite (Z.mod_small (v / 256)); [reflexivity|]. split; [apply Z.div_pos; lia|apply Z.div_lt_upper_bound; lia]. }
    destruct ST as [t v NU|t NN|t v NU|t NN|t v NU|t NN|t w v NU1 NU|t NN|t v NU|t v NU|t NN|t v NU|t NN]; try (apply NUM; reflexivity); clear NUM.
    - destruct (ONE 1%nat _ [] eq_refl eq_refl eq_refl eq_refl) as (v & FV & SL). apply ABS in FV. destruct FV as [LA RG].
      change (2 ^ 8) with 256 in RG. exists (pre ++ [v]). split; [constructor; apply e_imm8; assumption|].
      rewrite (LEN [v] eq_refl), SL, F1, Z.mod_small by exact RG. reflexivity.
    - destruct (ONE 2%nat _ [] eq_refl eq_refl eq_refl eq_refl) as (v & FV & SL). apply ABS in FV. destruct FV as [LA RG].
      change (2 ^ 16) with 65536 in RG. exists (pre ++ [v mod 256; v / 256]). split; [constructor; apply e_imm16; assumption|].
      rewrite (LEN [v mod 256; v / 256] eq_refl), SL, F2' by exact RG. reflexivity.
    - destruct (ONE 1%nat _ [0] eq_refl eq_refl eq_refl eq_refl) as (v & FV & SL). apply ABS in FV. destruct FV as [LA RG].
      change (2 ^ 8) with 256 in RG. exists (pre ++ [v; 0]). split; [constructor; apply e_addr8; assumption|].
      rewrite (LEN [v; 0] eq_refl), SL, F1, Z.mod_small by exact RG. reflexivity.
    - destruct (ONE 2%nat _ [] eq_refl eq_refl eq_refl eq_refl) as (v & FV & SL). apply ABS in FV. destruct FV as [LA RG].
      change (2 ^ 16) with 65536 in RG. exists (pre ++ [v mod 256; v / 256]). split; [constructor; apply e_addrv; assumption|].
      rewrite (LEN [v mod 256; v / 256] eq_refl), SL, F2' by exact RG. reflexivity.
    - destruct (ONE 1%nat _ [] eq_refl eq_refl eq_refl eq_refl) as (v & FV & SL). apply REL in FV; [|lia|lia]. destruct FV as [LA RG].
      change (2 ^ (8 - 1)) with 128 in RG. exists (pre ++ [v mod 256]). split; [constructor; apply e_jump8; assumption|].
      rewrite (LEN [v mod 256] eq_refl), SL, F1. reflexivity.
    - destruct (ONE 2%nat _ [] eq_refl eq_refl eq_refl eq_refl) as (v & FV & SL). apply REL in FV; [|lia|lia]. destruct FV as [LA RG].
      change (2 ^ (16 - 1)) with 32768 in RG. exists (pre ++ [v mod 256; v / 256 mod 256]). split; [constructor; apply e_jump16; assumption|].
      rewrite (LEN [v mod 256; v / 256 mod 256] eq_refl), SL, F2. reflexivity.
  Qed.
End Link.

(** ** The names of the instructions *)
Ltac branch X := repeat match type of X with
  | (if ?b then _ else _) = _ => destruct b
  | match ?o with Some _ => _ | None => _ end = _ => destruct o
  | match ?z with Z0 => _ | Zpos _ => _ | Zneg _ => _ end = _ => destruct z
  | match ?p with xI _ => _ | xO _ => _ | xH => _ end = _ => destruct p
  end; try discriminate X.
(** The mnemonics of instructions with two leading bytes, and of those with one whose value is
    not a distance. *)
Definition others : list str :=
  alu ++ [#"TEST"; #"XCHG"; #"MOV"; #"LEA"; #"POP"; #"LES"; #"LDS"; #"SHL"; #"SHR"; #"MUL"; #"DIV"; #"PUSH"; #"INC"; #"DEC"; #"INT"; #"IN"; #"OUT";
    #"RET"; #"RETF"; #"AAM"; #"AAD"] ++ map snd simple.
Ltac named := match goal with X : Some _ = Some _ |- _ => injection X as <- _; apply str_in_In; vm_compute; reflexivity end.
Lemma alu_other : forall n m, nth_error alu n = Some m -> In m others.
Proof. intros n m H. apply nth_error_In in H. unfold others. apply in_or_app. left. exact H. Qed.
Lemma decode2_name : forall op modrm (v : option (fld * str)) m os, decode2 op modrm v = Some (m, os) -> In m others.
Proof.
  intros op modrm v m os X. unfold decode2 in X. cbv zeta in X. generalize dependent (place R8 modrm v). generalize dependent (place R16 modrm v).
  intros e16 e8 X. destruct (op <? 64).
  - destruct (nth_error alu (Z.to_nat (op / 8))) as [m'|] eqn:A; [|discriminate X]. apply alu_other in A.
    branch X; injection X as <- _; exact A.
  - unfold unary in X. branch X; named.
Qed.
Lemma decode1_name : forall op (v : option (fld * str)) m os, decode1 op v = Some (m, os) ->
  In m others \/
  (exists t, v = Some (Jump8, t) /\ os = [Val t] /\ (In m (conditional ++ loops) \/ m = #"JMP")) \/
  (exists t, v = Some (Jump16, t) /\ os = [Val t] /\ (m = #"CALL" \/ m = #"JMP")).
Proof.
  intros op v m os X. unfold decode1, nth_name in X. destruct v as [[f a]|].
  - destruct f.
    + left. destruct ((op <? 64) && (op mod 8 =? 4)); [destruct (nth_error alu _) as [m'|] eqn:A; [|discriminate X]; injection X as <- _; eapply alu_other; eauto|].
      branch X; named.
    + left. destruct (op =? 160); [named|]. destruct (op =? 161); [named|]. destruct (op =? 162); [named|]. destruct (op =? 163); [named|].
      destruct ((op <? 64) && (op mod 8 =? 5)); [destruct (nth_error alu _) as [m'|] eqn:A; [|discriminate X]; injection X as <- _; eapply alu_other; eauto|].
      branch X; named.
    + left. branch X; named.
    + left. branch X; named.
    + discriminate X.
    + right. left. exists a. destruct (op / 16 =? 7).
      * destruct (nth_error conditional _) as [m'|] eqn:A; [|discriminate X]. injection X as <- <-. apply nth_error_In in A.
        split; [reflexivity|]. split; [reflexivity|]. left. apply in_or_app. auto.
      * destruct (op / 4 =? 56).
        -- destruct (nth_error loops _) as [m'|] eqn:A; [|discriminate X]. injection X as <- <-. apply nth_error_In in A.
           split; [reflexivity|]. split; [reflexivity|]. left. apply in_or_app. auto.
        -- branch X. injection X as <- <-. auto.
    + right. right. exists a. branch X; injection X as <- <-; auto.
  - left. destruct (dget Z.eqb simple op) as [m'|] eqn:D.
    + injection X as <- _. apply (PyFacts.dget_In Z.eqb Z.eqb_eq) in D.
      unfold others. apply in_or_app. right. apply in_or_app. right. apply in_map_iff. exists (op, m'). auto.
    + branch X; named.
Qed.
Definition jumps : list str := conditional ++ loops ++ [#"CALL"; #"JMP"].
Lemma jumps_apart : forall m, In m jumps -> ~ In m others.
Proof.
  intros m J O. assert (A : forallb (fun m => negb (str_in m others)) jumps = true) by (vm_compute; reflexivity).
  rewrite forallb_forall in A. apply A in J. apply str_in_In in O. rewrite O in J. discriminate.
Qed.
Lemma decode_jump : forall pre (v : option (fld * str)) m os, decode pre v = Some (m, os) -> In m jumps ->
  exists op f t, pre = [op] /\ v = Some (f, t) /\ os = [Val t] /\
    ((f = Jump8 /\ (In m (conditional ++ loops) \/ m = #"JMP")) \/ (f = Jump16 /\ (m = #"CALL" \/ m = #"JMP"))).
Proof.
  intros pre v m os X J. pose proof (jumps_apart m J) as NO. unfold decode in X. destruct pre as [|op [|modrm [|]]]; try discriminate X.
  - apply decode1_name in X. destruct X as [X|[(t & -> & -> & X)|(t & -> & -> & X)]]; [contradiction| |]; eexists op, _, t; repeat split; eauto.
  - exfalso. apply NO. destruct v as [v|].
    + eapply decode2_name; eauto.
    + destruct (_ && _); [named|]. destruct (_ && _); [named|]. eapply decode2_name; eauto.
Qed.
