(** Properties C61 to C63: the Intel 8086. *)
From Coq Require Import Lia.
From Verif Require Import Reach.
From Verif Require Import Py PyFacts Utils Tokenizer State Assembler SpecUtils SpecParse SpecSubst SpecExec SpecLink
  UtilsFacts SpecCpu SpecPlace Instr I8086 CpuFacts WordFacts LabelMono Demo
  PropsPlace PropsMosLink PropsFit FitFacts.
From Verif Require Import SpecI86 I86Facts I86Enc I86Link FitI86.
Local Open Scope Z_scope.

(** An instruction that is offered and is none of the three pitfalls is translated into bytes
    that the processor decodes to it. *)
Theorem C61_encoding : forall e s words t0 ops os, opcode_stmt (i8086 e) s words t0 ops -> 0 <= pc s -> written os ops ->
  offered (upper t0) os -> ~ pitfall i86_p s (upper t0) os ->
  exists pre v os', decode pre v = Some (upper t0, os') /\ Forall2 alike os os' /\
    forall fuel l s', exec (i8086 e) fuel [Stmt KInstruction words l] s = (s', Ok tt) <->
      exists b ds, laid86 i86_p s pre v b ds /\ emitted (referring s ds) b s'.
Proof. exact i86_encoding. Qed.
Print Assumptions C61_encoding.

(** The words of an instruction have one reading. *)
Lemma split_close : forall (a b r r' : list str), ~ In #"]" a -> ~ In #"]" b -> a ++ #"]" :: r = b ++ #"]" :: r' -> a = b /\ r = r'.
Proof.
  induction a as [|x a IH]; intros [|y b] r r' NA NB E; cbn [app] in E.
  - injection E as ->. auto.
  - injection E as <- _. exfalso. apply NB. left. reflexivity.
  - injection E as -> _. exfalso. apply NA. left. reflexivity.
  - injection E as -> E. destruct (IH b r r') as [-> ->]; auto; intros I; [apply NA|apply NB]; right; exact I.
Qed.
Lemma one_operand : forall o o' ws ws' r r', written1 o ws -> written1 o' ws' -> ws ++ r = ws' ++ r' -> o = o' /\ r = r'.
Proof.
  intros o o' ws ws' r r' W W' E.
  destruct (written_first _ _ W) as (t & q & -> & F), (written_first _ _ W') as (t' & q' & -> & F'). assert (t' = t) as -> by (cbn [app] in E; congruence).
  destruct (fw_index _ _ F) as (A1 & A2 & A3 & A4 & A5), (fw_index _ _ F') as (B1 & B2 & B3 & B4 & B5).
  rewrite A1 in B1. rewrite A2 in B2. rewrite A3 in B3. rewrite A4 in B4. rewrite A5 in B5.
  assert (NN : forall l n m x (y : str), nth_of l n x -> nth_of l m y -> Some (Z.to_nat n) = Some (Z.to_nat m) -> n = m) by (intros l n m x y [P _] [Q _] Z; injection Z; lia).
  assert (MEM : in_memory o = true -> in_memory o' = true -> o = o' /\ r = r').
  { intros I I'. destruct (written_inner _ _ W I) as (i & X & N & IN), (written_inner _ _ W' I') as (i' & X' & N' & IN').
    rewrite X, X' in E. cbn [app] in E. injection E as E. rewrite <- !app_assoc in E. cbn [app] in E. apply split_close in E; [|exact N|exact N'].
    destruct E as [<- ->]. split; [|reflexivity].
    destruct o as [n|n|n|n [d|]|a|a|n]; try discriminate I; destruct o' as [k|k|k|k [e|]|b|b|k]; try discriminate I'; cbn [inner] in IN, IN';
      try (destruct IN as (x & IN & SD & _)); try (destruct IN' as (x' & IN' & SD' & _)); try (destruct IN as (IN & _)); try (destruct IN' as (IN' & _)); try congruence.
    inversion W; subst. inversion W'; subst. congruence. }
  destruct F as [n t H|n t H|n t H|m d|a|t V C]; inversion F' as [k ? H'|k ? H'|k ? H'|m' d'|a'|? V' C']; subst; try discriminate; try (apply MEM; reflexivity).
  - rewrite (NN _ _ _ _ _ H H' B1). inversion W; subst; inversion W'; subst. injection E as ->. auto.
  - rewrite (NN _ _ _ _ _ H H' B2). inversion W; subst; inversion W'; subst. injection E as ->. auto.
  - rewrite (NN _ _ _ _ _ H H' B3). inversion W; subst; inversion W'; subst. injection E as ->. auto.
  - inversion W; subst; inversion W'; subst. injection E as ->. auto.
Qed.
Theorem C61_unambiguous : forall os os' ops, written os ops -> written os' ops -> os = os'.
Proof.
  intros os os' ops W. revert os'. induction W as [|o os ws ops W1 W IH]; intros os' W'.
  - inversion W' as [|o' os2 ws' ops' W1' W2 E1 E2]; [reflexivity|]. destruct (written_first _ _ W1') as (t & q & -> & _). discriminate.
  - inversion W' as [E|o' os2 ws' ops' W1' W2 E1 E2]; [destruct (written_first _ _ W1) as (t & q & -> & _); discriminate|].
    destruct (one_operand _ _ _ _ _ _ W1' W1 E2) as [-> ->]. f_equal. apply IH. exact W2.
Qed.
Print Assumptions C61_unambiguous.

(** Whatever is accepted is offered or one of the deviations. *)
Theorem C61_accepted : forall e s words t0 ops os fuel l s', opcode_stmt (i8086 e) s words t0 ops -> written os ops ->
  exec (i8086 e) fuel [Stmt KInstruction words l] s = (s', Ok tt) -> offered (upper t0) os \/ deviating (upper t0) os.
Proof. exact i86_accepted. Qed.
Print Assumptions C61_accepted.

(** In the linked image the instruction decodes to what was written, names standing for their
    addresses or distances. *)
Theorem C62_linked : forall e fuel text s0 s words l s1 s2 s3 t0 ops os,
  let c := i8086 e in
  byte_files c -> sane s0 ->
  passes_through c fuel text s0 s (Stmt KInstruction words l) s1 s2 ->
  opcode_stmt c s words t0 ops -> written os ops -> offered (upper t0) os -> ~ pitfall i86_p s (upper t0) os ->
  0 <= pc s -> short_texts c s2 -> link c dummy_linker s2 = (s3, Ok tt) ->
  exists pre v os' b, decode pre v = Some (upper t0, os') /\ Forall2 alike os os' /\
    final86 i86_p s s2 pre v b /\ slice (zlen (assembled s)) (zlen b) (assembled s3) = b.
Proof.
  intros e fuel text s0 s words l s1 s2 s3 t0 ops os c B SN H OS W O NP PC NT LK.
  destruct (C61_encoding e s words t0 ops os OS PC W O NP) as (pre & v & os' & DE & AL & X).
  pose proof H as (_ & _ & _ & _ & Y & _). apply X in Y. destruct Y as (b & ds & LA & EM). destruct (i86_fits e) as [F N].
  destruct (laid86_linked c fuel text s0 s _ s1 s2 s3 b ds F N B SN H EM NT LK eq_refl pre v LA PC) as (b' & FI & SL).
  exists pre, v, os', b'. auto.
Qed.
Print Assumptions C62_linked.

(** ** Jumps *)

Definition sign16 (x : Z) : Z := if x <? 32768 then x else x - 65536.
Lemma sign16_bytes : forall v, -32768 <= v < 32768 -> sign16 (v mod 256 + 256 * (v / 256 mod 256)) = v.
Proof.
  intros v R. replace (v mod 256 + 256 * (v / 256 mod 256)) with (v mod 65536).
  - unfold sign16. destruct (Z.neg_nonneg_cases v).
    + assert (E : v mod 65536 = v + 65536) by (symmetry; apply (Z.mod_unique_pos v 65536 (-1)); lia). rewrite E.
      destruct (Z.ltb_spec (v + 65536) 32768); lia.
    + rewrite Z.mod_small by lia. destruct (Z.ltb_spec v 32768); lia.
  - change 65536 with (256 * 256). rewrite Z.rem_mul_r by lia. reflexivity.
Qed.
(** The bytes b at address from are the jump m to address a: the processor adds the distance to
    the address of the next instruction. *)
Inductive lands (m : str) (from : Z) : bytes -> Z -> Prop :=
| la_short op d t : decode [op] (Some (Jump8, t)) = Some (m, [Val t : opd str]) -> is_byte d -> lands m from [op; d] (from + 2 + sign8 d)
| la_near op lo hi t : decode [op] (Some (Jump16, t)) = Some (m, [Val t : opd str]) -> is_byte lo -> is_byte hi ->
    lands m from [op; lo; hi] (from + 3 + sign16 (lo + 256 * hi)).
Definition jump_names : list str := conditional ++ loops ++ [#"CALL"; #"JMP"].

Lemma jump_offered : forall m t, In m jump_names -> offered m [Val t].
Proof.
  intros m t I. exists [Vl]. split; [|constructor; [exact Logic.I|constructor]].
  assert (A : forallb (fun m => existsb (fun r => str_eqb (fst r) m && match snd r with [Vl] => true | _ => false end) signatures) jump_names = true) by (vm_compute; reflexivity).
  rewrite forallb_forall in A. apply A in I. rewrite existsb_exists in I. destruct I as ([m' ks] & I & Q). cbn [fst snd] in Q.
  apply andb_prop in Q. destruct Q as [Q1 Q2]. apply str_eqb_eq in Q1. subst m'. destruct ks as [|[] [|]]; try discriminate Q2. exact I.
Qed.
Lemma jump_fine : forall p s m t, ~ pitfall p s m [Val t].
Proof.
  intros p s m t H. inversion H as [? ? I|? ? r d I|]; subst; cbn [In] in I; destruct I as [I|[]]; discriminate I.
Qed.
Lemma jump_linked : forall e fuel text s0 s words l s1 s2 s3 t0 t,
  let c := i8086 e in
  byte_files c -> sane s0 ->
  passes_through c fuel text s0 s (Stmt KInstruction words l) s1 s2 ->
  opcode_stmt c s words t0 [t] -> In (upper t0) jump_names -> value_word t -> ~ In ":"%char t ->
  not_num i86_p s t 16 true -> no_select t -> no_ops t -> t <> [] -> 0 <= pc s -> short_texts c s2 ->
  link c dummy_linker s2 = (s3, Ok tt) ->
  exists a b, address_of (labels s2) t a /\ lands (upper t0) (pc s) b a /\ slice (zlen (assembled s)) (zlen b) (assembled s3) = b /\
    (In (upper t0) (conditional ++ loops) -> -128 <= a - (pc s + 2) < 128) /\ -32768 <= a - (pc s + 3) < 32768.
Proof.
  intros e fuel text s0 s words l s1 s2 s3 t0 t c B SN H OS J VW NC NN NS NO NE PC NT LK.
  assert (W : written [Val t] [t]) by (apply (w_cons (Val t) [] [t] []); [constructor; assumption|constructor]).
  destruct (C62_linked e fuel text s0 s words l s1 s2 s3 t0 [t] [Val t] B SN H OS W (jump_offered _ t J) (jump_fine _ _ _ _) PC NT LK)
    as (pre & v & os' & b & DE & AL & FI & SL).
  destruct (decode_jump _ _ _ _ DE J) as (op & f & t' & -> & -> & -> & K).
  assert (t' = t) as ->. { inversion AL as [|? ? ? ? P]; subst. inversion P; subst. reflexivity. }
  inversion FI as [|f' t'' bo SE]; subst. change (zlen [op]) with 1 in SE.
  assert (NN8 : not_num i86_p s t 8 true) by (eapply I86Read.not_num_width; eauto).
  destruct K as [[-> K]|[-> K]].
  - inversion SE as [? ? ? ST| | | | |? v' N2 LR RG|]; subst; [inversion ST; subst; unfold num, not_num in *; congruence|].
    destruct (plain_relative _ _ _ _ _ NS NO NE LR) as (a & A & ->). exists a, [op; (a - (pc s + 1 + 1)) mod 256].
    split; [exact A|]. split; [|split; [exact SL|]].
    + replace a with (pc s + 2 + sign8 ((a - (pc s + 1 + 1)) mod 256)) at 2 by (rewrite sign8_mod by exact RG; ring).
      apply (la_short _ _ _ _ t); [exact DE|]. unfold is_byte. apply Z.mod_pos_bound. lia.
    + split; [intros _; lia|lia].
  - inversion SE as [? ? ? ST| | | | | |? v' N2 LR RG]; subst; [inversion ST; subst; unfold num, not_num in *; congruence|].
    destruct (plain_relative _ _ _ _ _ NS NO NE LR) as (a & A & ->). eexists a, [op; _; _].
    split; [exact A|]. split; [|split; [exact SL|]].
    + replace a with (pc s + 3 + sign16 ((a - (pc s + 1 + 2)) mod 256 + 256 * ((a - (pc s + 1 + 2)) / 256 mod 256))) at 3 by (rewrite sign16_bytes by exact RG; ring).
      apply (la_near _ _ _ _ _ t); [exact DE| |]; unfold is_byte; apply Z.mod_pos_bound; lia.
    + split; [|lia]. intros I. exfalso. assert (X : ~ In #"CALL" (conditional ++ loops) /\ ~ In #"JMP" (conditional ++ loops)).
      { split; intros Q; apply str_in_In in Q; discriminate Q. }
      destruct K as [K|K]; rewrite K in I; tauto.
Qed.
(** A jump to a label that links lands on the label. *)
Theorem C63_lands : forall e fuel text s0 s words l s1 s2 s3 t0 t,
  let c := i8086 e in
  byte_files c -> sane s0 ->
  passes_through c fuel text s0 s (Stmt KInstruction words l) s1 s2 ->
  opcode_stmt c s words t0 [t] -> In (upper t0) jump_names -> value_word t -> ~ In ":"%char t ->
  not_num i86_p s t 16 true -> no_select t -> no_ops t -> t <> [] -> 0 <= pc s -> short_texts c s2 ->
  link c dummy_linker s2 = (s3, Ok tt) ->
  exists a b, address_of (labels s2) t a /\ slice (zlen (assembled s)) (zlen b) (assembled s3) = b /\ lands (upper t0) (pc s) b a.
Proof.
  intros e fuel text s0 s words l s1 s2 s3 t0 t c B SN H OS J VW NC NN NS NO NE PC NT LK.
  destruct (jump_linked e fuel text s0 s words l s1 s2 s3 t0 t B SN H OS J VW NC NN NS NO NE PC NT LK) as (a & b & A & LA & SL & _).
  exists a, b. auto.
Qed.
Print Assumptions C63_lands.
(** A target out of reach, or not defined anywhere, does not link. *)
Theorem C63_too_far : forall e fuel text s0 s words l s1 s2 t0 t,
  let c := i8086 e in
  byte_files c -> sane s0 ->
  passes_through c fuel text s0 s (Stmt KInstruction words l) s1 s2 ->
  opcode_stmt c s words t0 [t] -> In (upper t0) jump_names -> value_word t -> ~ In ":"%char t ->
  not_num i86_p s t 16 true -> no_select t -> no_ops t -> t <> [] -> 0 <= pc s -> short_texts c s2 ->
  (forall a, address_of (labels s2) t a ->
    ~ -32768 <= a - (pc s + 3) < 32768 \/ (In (upper t0) (conditional ++ loops) /\ ~ -128 <= a - (pc s + 2) < 128)) ->
  snd (link c dummy_linker s2) <> Ok tt.
Proof.
  intros e fuel text s0 s words l s1 s2 t0 t c B SN H OS J VW NC NN NS NO NE PC NT FAR LK.
  destruct (link c dummy_linker s2) as [s3 r] eqn:E. cbn [snd] in LK. subst r.
  destruct (jump_linked e fuel text s0 s words l s1 s2 s3 t0 t B SN H OS J VW NC NN NS NO NE PC NT E) as (a & b & A & LA & SL & R8 & R16).
  destruct (FAR a A) as [X|[I X]]; [exact (X R16)|exact (X (R8 I))].
Qed.
Print Assumptions C63_too_far.

(** ** Concrete cases *)
Definition xx := i8086 demo_env.
Definition x_run (l : list string) : st * res unit := assemble xx 5 (lines l) (init_st []).
Definition x_bytes (l : list string) : bytes := assembled (fst (x_run l)).
Definition c61_text : str := lines [".org 0x100"; "start: mov ax, 5"; "add al, [bx + si]"; "mov [bp - 2], cx"; "jnz start"; "call start";
  "mov ax, [start]"; "shl bx, 1"; "int 3"; "ret"]%string.
Lemma is_value : forall t, str_in (upper t) (bytes_regs ++ words_regs ++ segs_regs ++ [#"["; #"]"]) = false -> value_word t.
Proof.
  intros t H. assert (X : forall w, In w (bytes_regs ++ words_regs ++ segs_regs ++ [#"["; #"]"]) -> upper t <> w).
  { intros w I E. subst w. apply str_in_In in I. rewrite I in H. discriminate. }
  split; [|split].
  - intros I. apply (X (upper t)); [|reflexivity]. rewrite !in_app_iff in *. tauto.
  - intros ->. apply (X #"["); [apply str_in_In; reflexivity|reflexivity].
  - intros ->. apply (X #"]"); [apply str_in_In; reflexivity|reflexivity].
Qed.
Lemma no_colon : forall t, existsb (Ascii.eqb ":") t = false -> ~ In ":"%char t.
Proof. intros t H I. assert (X : existsb (Ascii.eqb ":") t = true) by (apply existsb_exists; exists ":"%char; split; [exact I|reflexivity]). congruence. Qed.
Ltac reg := first [apply w_r8|apply w_r16|apply w_sr]; (split; [lia|reflexivity]).
Ltac val := apply w_val; [apply is_value; reflexivity|apply no_colon; reflexivity].

Example C61_example :
  let s := fst (exec xx 5 (firstn 4 (stmts_of c61_text)) (init_st [])) in
  let words := [#"mov"; #"["; #"bp"; #"-"; #"2"; #"]"; #"cx"] in
  let os := [Mem 6 (Some #"-2"); R16 1] in
  opcode_stmt xx s words #"mov" (tl words) /\ pc s = 0x105 /\ written os (tl words) /\ offered #"MOV" os /\ ~ pitfall i86_p s #"MOV" os /\
  decode [0x89; 0x8E] (Some (Disp16, #"-2")) = Some (#"MOV", os) /\
  laid86 i86_p s [0x89; 0x8E] (Some (Disp16, #"-2")) [0x89; 0x8E; 0xFE; 0xFF] [] /\
  assembled (fst (exec xx 5 [Stmt KInstruction words 4] s)) = [0xB8; 5; 0; 0x02; 0x00; 0x89; 0x8E; 0xFE; 0xFF].
Proof.
  cbv zeta. split; [apply plain_stmt; vm_compute; reflexivity|]. split; [vm_compute; reflexivity|]. split.
  { apply (w_cons (Mem 6 (Some #"-2")) [R16 1] [#"["; #"bp"; #"-"; #"2"; #"]"] [#"cx"]).
    - apply (w_minus 6 [#"bp"] #"2"); [split; [lia|reflexivity]|apply is_value; reflexivity].
    - apply (w_cons (R16 1) [] [#"cx"] []); [reg|constructor]. }
  split. { exists [E16; G16]. split; [apply sigs_in; vm_compute; tauto|repeat constructor]. }
  split. { intros H. inversion H as [? ? I|? ? r d I N|? ? ? I]; subst.
    - destruct I as [I|[I|[]]]; discriminate I.
    - destruct I as [I|[I|[]]]; [|discriminate I]. injection I as <- <-. vm_compute in N. discriminate N. }
  split; [vm_compute; reflexivity|]. split; [|vm_compute; reflexivity].
  apply (ld_some _ _ [0x89; 0x8E] Disp16 #"-2" [0xFE; 0xFF]). apply (s_disp16 _ _ _ #"-2" (-2)). vm_compute. reflexivity.
Qed.
(** A number that is part of the code, a name, and an instruction without operands. *)
Example C61_more :
  let s := init_st [] in
  (written [R16 3; Val #"1"] [#"bx"; #"1"] /\ offered #"SHL" [R16 3; Val #"1"] /\
   decode [0xD1; 0xE3] None = Some (#"SHL", [R16 3; Lit 1 : opd str]) /\ Forall2 alike [R16 3; Val #"1"] [R16 3; Lit 1] /\
   x_bytes ["shl bx, 1"]%string = [0xD1; 0xE3]) /\
  (written [R16 0; Dir #"v"] [#"ax"; #"["; #"v"; #"]"] /\ offered #"MOV" [R16 0; Dir #"v"] /\
   laid86 i86_p s [0xA1] (Some (Imm16, #"v")) [0xA1; 0; 0] [ref #"v" 2 16 1 0] /\
   decode [0xA1] (Some (Imm16, #"v")) = Some (#"MOV", [R16 0; Dir #"v"])) /\
  (written [] [] /\ offered #"RET" [] /\ decode [0xC3] None = Some (#"RET", [] : list (opd str)) /\ x_bytes ["ret"]%string = [0xC3]).
Proof.
  cbv zeta. split; [|split].
  - split; [apply (w_cons (R16 3) [Val #"1"] [#"bx"] [#"1"]); [reg|apply (w_cons (Val #"1") [] [#"1"] []); [val|constructor]]|].
    split; [exists [E16; One]; split; [apply sigs_in; vm_compute; tauto|repeat constructor]|]. split; [vm_compute; reflexivity|].
    split; [repeat constructor|vm_compute; reflexivity].
  - split; [apply (w_cons (R16 0) [Dir #"v"] [#"ax"] [#"["; #"v"; #"]"]); [reg|apply (w_cons (Dir #"v") [] [#"["; #"v"; #"]"] []); [|constructor]]|].
    { apply w_dir. apply is_value. reflexivity. }
    split; [exists [AX'; Da]; split; [apply sigs_in; vm_compute; tauto|repeat constructor]|].
    split; [|vm_compute; reflexivity]. apply (ld_some _ _ [0xA1] Imm16 #"v" [0; 0]). apply s_imm16_name. vm_compute. reflexivity.
  - split; [constructor|]. split; [exists []; split; [apply sigs_in; vm_compute; tauto|constructor]|]. split; vm_compute; reflexivity.
Qed.
(** Something accepted that is not offered. *)
Example C61_deviation :
  snd (x_run ["mov [bx], 7"]%string) = Ok tt /\ written [Mem 7 None; Val #"7"] [#"["; #"bx"; #"]"; #"7"] /\
  deviating #"MOV" [Mem 7 None; Val #"7"] /\ ~ offered #"MOV" [Mem 7 None; Val #"7"].
Proof.
  split; [vm_compute; reflexivity|]. split.
  { apply (w_cons (Mem 7 None) [Val #"7"] [#"["; #"bx"; #"]"] [#"7"]); [apply (w_mem 7 [#"bx"]); split; [lia|reflexivity]|].
    apply (w_cons (Val #"7") [] [#"7"] []); [val|constructor]. }
  split; [constructor|]. intros O. apply offered_iff in O; [|cbn; lia]. vm_compute in O. discriminate O.
Qed.
Example C62_example :
  let s := fst (exec xx 5 (firstn 7 (stmts_of c61_text)) (init_st [])) in
  let words := [#"mov"; #"ax"; #"["; #"start"; #"]"] in
  let x := Stmt KInstruction words 7 in
  let s2 := fst (assemble xx 5 c61_text (init_st [])) in
  passes_through xx 5 c61_text (init_st []) s x (fst (exec xx 5 [x] s)) s2 /\
  opcode_stmt xx s words #"mov" (tl words) /\ no_text s2 /\
  final86 i86_p s s2 [0xA1] (Some (Imm16, #"start")) [0xA1; 0x00; 0x01] /\
  exists s3, link xx dummy_linker s2 = (s3, Ok tt) /\
    assembled s3 = [0xB8; 5; 0; 0x02; 0x00; 0x89; 0x8E; 0xFE; 0xFF; 0x75; 0xF5; 0xE8; 0xF2; 0xFF; 0xA1; 0x00; 0x01; 0xD1; 0xE3; 0xCC; 0xC3].
Proof.
  cbv zeta. split; [reached 7%nat|]. split; [apply plain_stmt; vm_compute; reflexivity|]. split; [untexted|].
  split; [|linked]. apply (f_some _ _ _ [0xA1] Imm16 #"start" [0x00; 0x01]). apply (e_imm16 _ _ _ _ #"start" 0x100); [vm_compute; reflexivity|vm_compute; reflexivity|lia].
Qed.
Example C63_example :
  let s := fst (exec xx 5 (firstn 5 (stmts_of c61_text)) (init_st [])) in
  let x := Stmt KInstruction [#"jnz"; #"start"] 5 in
  let s2 := fst (assemble xx 5 c61_text (init_st [])) in
  passes_through xx 5 c61_text (init_st []) s x (fst (exec xx 5 [x] s)) s2 /\
  opcode_stmt xx s [#"jnz"; #"start"] #"jnz" [#"start"] /\ In #"JNZ" jump_names /\ value_word #"start" /\ ~ In ":"%char #"start" /\
  not_num i86_p s #"start" 16 true /\ no_select #"start" /\ no_ops #"start" /\ pc s = 0x109 /\ no_text s2 /\
  address_of (labels s2) #"start" 0x100 /\ lands #"JNZ" 0x109 [0x75; 0xF5] 0x100 /\ lands #"CALL" 0x10B [0xE8; 0xF2; 0xFF] 0x100.
Proof.
  cbv zeta. split; [reached 5%nat|]. split; [apply plain_stmt; vm_compute; reflexivity|]. split; [apply str_in_In; reflexivity|].
  split; [apply is_value; reflexivity|]. split; [apply no_colon; reflexivity|]. split; [vm_compute; reflexivity|].
  split; [intros c t E; injection E as <- _; split; discriminate|].
  split; [repeat (constructor; [vm_compute; intuition discriminate|]); constructor|]. split; [vm_compute; reflexivity|]. split; [untexted|].
  split; [eexists; split; vm_compute; reflexivity|]. split.
  - change 0x100 with (0x109 + 2 + sign8 0xF5). apply (la_short _ _ _ _ #"start"); [vm_compute; reflexivity|unfold is_byte; lia].
  - change 0x100 with (0x10B + 3 + sign16 (0xF2 + 256 * 0xFF)). apply (la_near _ _ _ _ _ #"start"); [vm_compute; reflexivity|unfold is_byte; lia|unfold is_byte; lia].
Qed.
(** A jump out of reach. *)
Example C63_far :
  let text := lines ["jz away"; ".org 0x300"; "away: nop"]%string in
  let x := Stmt KInstruction [#"jz"; #"away"] 1 in
  let s2 := fst (assemble xx 5 text (init_st [])) in
  passes_through xx 5 text (init_st []) (init_st []) x (fst (exec xx 5 [x] (init_st []))) s2 /\ In #"JZ" (conditional ++ loops) /\
  (forall a, address_of (labels s2) #"away" a -> ~ -128 <= a - (pc (init_st []) + 2) < 128) /\ fine (snd (link xx dummy_linker s2)) = false.
Proof.
  cbv zeta. split; [reached 0%nat|]. split; [apply str_in_In; reflexivity|]. split; [|vm_compute; reflexivity].
  intros a (d & D & A). vm_compute in D. injection D as <-. vm_compute in A. subst a. vm_compute. intuition discriminate.
Qed.

(** ** Findings *)

(** [BP] becomes the start of an instruction with a direct address. *)
Theorem C61_bp_refuted : x_bytes ["mov al, [bp]"; "nop"; "nop"]%string = [0x8A; 0x06; 0x90; 0x90] /\
  decode [0x8A; 0x06] None = (None : option (str * list (opd str))) /\ decode [0x8A; 0x06] (Some (Imm16, #"x")) = Some (#"MOV", [R8 0; Dir #"x"]).
Proof. split; [|split]; vm_compute; reflexivity. Qed.
(** A name as displacement is put over the byte with mod, reg and r/m: here SI is loaded
    instead of AX. *)
Definition x_linked (l : list string) : bytes := assembled (fst (link xx dummy_linker (fst (x_run l)))).
Theorem C61_displacement_refuted :
  snd (link xx dummy_linker (fst (x_run [".org 0x1234"; "v: mov ax, [bx + v]"]%string))) = Ok tt /\
  x_linked [".org 0x1234"; "v: mov ax, [bx + v]"]%string = [0x8B; 0xB7; 0x12; 0x00] /\
  decode [0x8B; 0xB7] (Some (Disp16, #"0x12")) = Some (#"MOV", [R16 6; Mem 7 (Some #"0x12")]).
Proof. split; [|split]; vm_compute; reflexivity. Qed.
Theorem C61_far_pointer_refuted : x_linked [".org 0x1234"; "v: les ax, [v]"]%string = [0xC4; 0x36; 0x12; 0x00].
Proof. vm_compute. reflexivity. Qed.
(** An immediate value in memory and POP of memory lose the byte with mod, reg and r/m. *)
Theorem C61_store_refuted :
  snd (x_run ["mov [bx], 7"]%string) = Ok tt /\ x_bytes ["mov [bx], 7"]%string = [0xC6; 7] /\
  x_bytes ["mov [si + 5], 7"]%string = [0xC6; 7] /\ x_bytes ["pop [bx]"]%string = [0x8F].
Proof. repeat split; vm_compute; reflexivity. Qed.
(** AAM and AAD lose their second byte. *)
Theorem C61_adjust_refuted : x_bytes ["aam 10"]%string = [0xD4] /\ x_bytes ["aad 10"]%string = [0xD5] /\
  decode [0xD4; 10] None = Some (#"AAM", [] : list (opd str)).
Proof. repeat split; vm_compute; reflexivity. Qed.
(** Every shift is by one; what follows the operands is ignored. *)
Theorem C61_shift_refuted :
  x_bytes ["shl ax, 4"]%string = x_bytes ["shl ax, 1"]%string /\ x_bytes ["shl ax, cl"]%string = x_bytes ["shl ax, 1"]%string /\
  x_bytes ["add ax, bx, cx, 5"]%string = x_bytes ["add ax, bx"]%string /\ snd (x_run ["add ax, bx, cx, 5"]%string) = Ok tt.
Proof. repeat split; vm_compute; reflexivity. Qed.
(** Numbers as addresses: AL from or to memory, and AX to memory, only below 256. *)
Theorem C61_address_refuted :
  snd (x_run ["mov al, [0x1234]"]%string) <> Ok tt /\ snd (x_run ["mov [0x1234], ax"]%string) <> Ok tt /\
  x_bytes ["mov ax, [0x1234]"]%string = [0xA1; 0x34; 0x12] /\
  snd (link xx dummy_linker (fst (x_run [".org 0x1234"; "v: mov al, [v]"]%string))) <> Ok tt.
Proof. split; [|split; [|split]]; [vm_compute; discriminate..|vm_compute; reflexivity|vm_compute; discriminate]. Qed.
(** Written without spaces, base and index are a name; a jump through memory is one to a label
    called [. *)
Theorem C61_spaces_refuted :
  x_bytes ["mov ax, [bx+si]"]%string = [0xA1; 0; 0] /\ x_bytes ["mov ax, [bx + si]"]%string = [0x8B; 0x00] /\
  x_bytes ["jmp [bx]"]%string = [0xE9; 0; 0] /\
  map (fun r => ld_label (snd r)) (labels_addresses (fst (x_run ["jmp [bx]"]%string))) = [#"["].
Proof. repeat split; vm_compute; reflexivity. Qed.
(** A far jump cannot be written, for the tokenizer reads the colon as that of a label; a
    number such as 0FFh is a name; a move to CS, which the processor does not have, is accepted. *)
Theorem C61_far_refuted :
  snd (x_run ["jmp 0x10:0x20"]%string) <> Ok tt /\
  map (fun r => ld_label (snd r)) (labels_addresses (fst (x_run ["mov al, 0FFh"]%string))) = [#"0FFh"] /\
  x_bytes ["mov cs, ax"]%string = [0x8E; 0xC8] /\ decode [0x8E; 0xC8] None = (None : option (str * list (opd str))).
Proof. split; [vm_compute; discriminate|]. repeat split; vm_compute; reflexivity. Qed.

(** ** C39 *)

Theorem C39_i8086 : forall e, fits (i8086 e) /\ handlers neat (i8086 e).
Proof. exact i86_fits. Qed.
Print Assumptions C39_i8086.
Print Assumptions C61_bp_refuted.
Print Assumptions C61_displacement_refuted.
Print Assumptions C61_far_pointer_refuted.
Print Assumptions C61_store_refuted.
Print Assumptions C61_adjust_refuted.
Print Assumptions C61_shift_refuted.
Print Assumptions C61_address_refuted.
Print Assumptions C61_spaces_refuted.
Print Assumptions C61_far_refuted.
