(** Properties C67 to C70: the x86. *)
From Coq Require Import Lia.
From Verif Require Import Reach.
From Verif Require Import Py PyFacts Utils Tokenizer State Assembler SpecUtils SpecParse SpecSubst SpecExec SpecLink
  UtilsFacts Events ExecFacts SpecCpu SpecPlace X86 CpuFacts LabelMono Demo
  PropsExec PropsLink PropsPlace PropsMosLink PropsFit FitFacts X86Facts FitX86.
From Verif Require Import SpecX86 X86Enc X86Link.
Local Open Scope Z_scope.

(** ** C67 *)

(** An instruction of the manual is translated into code the manual gives for it. *)
Theorem C67_encoding : forall e s words t0 ops b ds, In (x86_bits s) [16; 32; 64] -> 0 <= pc s -> opcode_stmt (x86 e) s words t0 ops ->
  encoded x86_p s (upper t0) ops b ds ->
  exists b' ds', encoded x86_p s (upper t0) ops b' ds' /\ assembles (x86 e) s words b' ds'.
Proof. exact x86_encoding. Qed.
Print Assumptions C67_encoding.

(** ** C68 *)

Lemma emitted_of : forall c s words b ds fuel text s0 l s1 s2, assembles c s words b ds ->
  passes_through c fuel text s0 s (Stmt KInstruction words l) s1 s2 -> emitted (referring s ds) b s1.
Proof.
  intros c s words b ds fuel text s0 l s1 s2 A (_ & _ & _ & _ & X & _). destruct (A fuel l) as (s' & Y & EM).
  rewrite X in Y. injection Y as <-. exact EM.
Qed.
(** In the linked image it has its names put in. *)
Theorem C68_linked : forall e fuel text s0 s words l s1 s2 s3 t0 ops b ds,
  let c := x86 e in
  byte_files c -> sane s0 ->
  passes_through c fuel text s0 s (Stmt KInstruction words l) s1 s2 ->
  opcode_stmt c s words t0 ops -> In (x86_bits s) [16; 32; 64] -> 0 <= pc s -> encoded x86_p s (upper t0) ops b ds ->
  short_texts c s2 -> link c dummy_linker s2 = (s3, Ok tt) ->
  exists b', resolved x86_p s s2 (upper t0) ops b' /\ slice (zlen (assembled s)) (zlen b') (assembled s3) = b'.
Proof.
  intros e fuel text s0 s words l s1 s2 s3 t0 ops b ds c B SN H OS MO PC EN NT LK.
  destruct (x86_encoding e s words t0 ops b ds MO PC OS EN) as (b1 & ds1 & EN1 & A). destruct (x86_fits e) as [F N].
  destruct (x86_linked c fuel text s0 s _ s1 s2 s3 b1 ds1 F N B SN H (emitted_of _ _ _ _ _ _ _ _ _ _ _ A H) NT LK eq_refl _ _ EN1 PC) as (b' & R & _ & SL).
  exists b'. auto.
Qed.
Print Assumptions C68_linked.

(** ** C69 *)

Definition jumps : list str := [#"CALL"; #"JMP"] ++ map (fun '(n, _) => #"J" ++ n) numbered.
Lemma jump_manual : forall m op f, In m jumps -> In (m, (op, f)) manual -> f = Rel.
Proof.
  intros m op f J I.
  assert (K : forallb (fun x => negb (str_in (fst x) jumps) || match snd (snd x) with Rel => true | _ => false end) manual = true) by (vm_compute; reflexivity).
  rewrite forallb_forall in K. specialize (K _ I). cbn [fst snd] in K. rewrite (proj2 (str_in_In m jumps) J) in K. destruct f; try discriminate K. reflexivity.
Qed.
Lemma jump_entry : forall m, In m jumps -> exists op, In (m, (op, Rel)) manual.
Proof.
  intros m J. assert (K : forallb (fun m => existsb (fun x => str_eqb (fst x) m) manual) jumps = true) by (vm_compute; reflexivity).
  rewrite forallb_forall in K. specialize (K _ J). rewrite existsb_exists in K. destruct K as ([m' [op f]] & I & Q). cbn [fst] in Q. apply str_eqb_eq in Q. subst m'.
  exists op. rewrite (jump_manual _ _ _ J I) in I. exact I.
Qed.
Lemma jump_no_repeat : forall m k, In m jumps -> ~ In (m, k) repeats.
Proof.
  intros m k J I. assert (K : forallb (fun x => negb (str_in (fst x) jumps)) repeats = true) by (vm_compute; reflexivity).
  rewrite forallb_forall in K. specialize (K _ I). cbn [fst] in K. rewrite (proj2 (str_in_In m jumps) J) in K. discriminate K.
Qed.
(** The address after the jump, given the number of bytes of its opcode. *)
Definition jump_size (s : st) : Z := if x86_bits s =? 16 then 2 else 4.
Lemma signed_low : forall n v, 1 <= n -> - 2 ^ (8 * n - 1) <= v < 2 ^ (8 * n - 1) -> signed_value n (v mod 2 ^ (8 * n)) = v.
Proof.
  intros n v N R. unfold signed_value. assert (P : 2 ^ (8 * n) = 2 * 2 ^ (8 * n - 1)) by (rewrite <- Z.pow_succ_r by lia; f_equal; lia).
  rewrite P. set (h := 2 ^ (8 * n - 1)) in *. destruct (Z.neg_nonneg_cases v).
  - replace (v mod (2 * h)) with (v + 2 * h) by (apply (Z.mod_unique_pos v (2 * h) (-1)); lia). destruct (Z.ltb_spec (v + 2 * h) h); lia.
  - rewrite Z.mod_small by lia. destruct (Z.ltb_spec v h); lia.
Qed.
Lemma jump_linked : forall e fuel text s0 s words l s1 s2 s3 t0 t,
  let c := x86 e in
  byte_files c -> sane s0 ->
  passes_through c fuel text s0 s (Stmt KInstruction words l) s1 s2 ->
  opcode_stmt c s words t0 [t] -> In (upper t0) jumps -> value_word t -> In (x86_bits s) [16; 32; 64] ->
  not_num x86_p s t 16 true -> no_select t -> no_ops t -> t <> [] -> 0 <= pc s -> short_texts c s2 ->
  link c dummy_linker s2 = (s3, Ok tt) ->
  exists a op lo, address_of (labels s2) t a /\ In (upper t0, (op, Rel)) manual /\
    let d := a - (pc s + zlen op + jump_size s) in let b := op ++ lo ++ repeat 0 (Z.to_nat (jump_size s - 2)) in
    -32768 <= d < 32768 /\ little 2 d lo /\ slice (zlen (assembled s)) (zlen b) (assembled s3) = b.
Proof.
  intros e fuel text s0 s words l s1 s2 s3 t0 t c B SN H OS J VW MO NN NS NO NE PC NT LK.
  destruct (jump_entry _ J) as (op0 & I0).
  assert (W : written [Val t] [t]) by (apply (w_cons (Val t) [] [t] []); [constructor; exact VW|constructor]).
  assert (EN : encoded x86_p s (upper t0) [t] (op0 ++ repeat 0 (Z.to_nat (jump_size s))) [ref t 2 16 (zlen op0) (pc s + zlen op0 + jump_size s)]).
  { eapply n_plain; [exact I0|exact W|]. constructor. apply d_name. exact NN. }
  destruct (C68_linked e fuel text s0 s words l s1 s2 s3 t0 [t] _ _ B SN H OS MO PC EN NT LK) as (b & R & SL).
  inversion R as [m ops op f os b' ds I W' E|m k t' op f b' I _ _]; subst; [|exfalso; exact (jump_no_repeat _ _ J I)].
  assert (f = Rel) as -> by (eapply jump_manual; eassumption). inversion E as [| | | | | | | | |op' u bb dd D|]; subst.
  assert (u = t) as -> by (inversion W' as [|? ? ? ? W1 W2]; subst; inversion W1; subst; cbn [app] in *; congruence).
  fold (jump_size s) in D. inversion D as [v b1 NM L|v b1 _ LR RG L]; subst; [unfold num, not_num in *; congruence|].
  destruct (plain_relative _ _ _ _ _ NS NO NE LR) as (a & A & ->). exists a, op, b1. split; [exact A|]. split; [exact I|]. cbv zeta. auto.
Qed.
(** A jump or call to a label lands on it, in 16-bit mode, or if the label comes after it. *)
Theorem C69_lands : forall e fuel text s0 s words l s1 s2 s3 t0 t,
  let c := x86 e in
  byte_files c -> sane s0 ->
  passes_through c fuel text s0 s (Stmt KInstruction words l) s1 s2 ->
  opcode_stmt c s words t0 [t] -> In (upper t0) jumps -> value_word t -> In (x86_bits s) [16; 32; 64] ->
  not_num x86_p s t 16 true -> no_select t -> no_ops t -> t <> [] -> 0 <= pc s -> short_texts c s2 ->
  link c dummy_linker s2 = (s3, Ok tt) ->
  exists a b, address_of (labels s2) t a /\ slice (zlen (assembled s)) (zlen b) (assembled s3) = b /\
    (x86_bits s = 16 \/ pc s + zlen b <= a -> lands (x86_bits s) (upper t0) (pc s) b a).
Proof.
  intros e fuel text s0 s words l s1 s2 s3 t0 t c B SN H OS J VW MO NN NS NO NE PC NT LK.
  destruct (jump_linked e fuel text s0 s words l s1 s2 s3 t0 t B SN H OS J VW MO NN NS NO NE PC NT LK) as (a & op & lo & A & I & RG & (LB & LL & LV) & SL).
  exists a, (op ++ lo ++ repeat 0 (Z.to_nat (jump_size s - 2))). split; [exact A|]. split; [exact SL|]. intros FW.
  assert (ZL : zlen (lo ++ repeat 0 (Z.to_nat (jump_size s - 2))) = jump_size s) by (rewrite zlen_app, zlen_zeros, LL; unfold jump_size; destruct (x86_bits s =? 16); reflexivity).
  assert (BY : Forall is_byte (lo ++ repeat 0 (Z.to_nat (jump_size s - 2)))).
  { apply Forall_app. split; [exact LB|]. apply Forall_forall. intros x X. apply repeat_spec in X. subst x. unfold is_byte. lia. }
  assert (V : signed_value (jump_size s) (le_value (lo ++ repeat 0 (Z.to_nat (jump_size s - 2)))) = a - (pc s + zlen op + jump_size s)).
  { rewrite zlen_app, ZL in FW. unfold jump_size in *. destruct (x86_bits s =? 16) eqn:M.
    - cbn [Z.to_nat Z.sub repeat]. change (Z.to_nat (2 - 2)) with 0%nat. cbn [repeat]. rewrite app_nil_r, LV. apply signed_low; [lia|exact RG].
    - destruct FW as [FW|FW]; [rewrite FW in M; discriminate M|]. change (Z.to_nat (4 - 2)) with 2%nat.
      rewrite Z.mod_small in LV by (change (2 ^ (8 * 2)) with 65536; lia).
      replace (le_value (lo ++ repeat 0 2)) with (le_value lo).
      + rewrite LV. unfold signed_value. change (2 ^ (8 * 4 - 1)) with 2147483648. destruct (Z.ltb_spec (a - (pc s + zlen op + 4)) 2147483648); lia.
      + clear. induction lo as [|x lo IH]; [reflexivity|]. cbn [app le_value]. rewrite IH. reflexivity. }
  replace a with (pc s + zlen op + zlen (lo ++ repeat 0 (Z.to_nat (jump_size s - 2))) + signed_value (zlen (lo ++ repeat 0 (Z.to_nat (jump_size s - 2)))) (le_value (lo ++ repeat 0 (Z.to_nat (jump_size s - 2))))) at 1
    by (rewrite ZL, V; ring).
  constructor; [exact I|exact BY|exact ZL].
Qed.
Print Assumptions C69_lands.
(** A label that is further away than 2^15 bytes, or not defined anywhere, does not link. *)
Theorem C69_too_far : forall e fuel text s0 s words l s1 s2 t0 t,
  let c := x86 e in
  byte_files c -> sane s0 ->
  passes_through c fuel text s0 s (Stmt KInstruction words l) s1 s2 ->
  opcode_stmt c s words t0 [t] -> In (upper t0) jumps -> value_word t -> In (x86_bits s) [16; 32; 64] ->
  not_num x86_p s t 16 true -> no_select t -> no_ops t -> t <> [] -> 0 <= pc s -> short_texts c s2 ->
  (forall a op, address_of (labels s2) t a -> In (upper t0, (op, Rel)) manual -> ~ -32768 <= a - (pc s + zlen op + (if x86_bits s =? 16 then 2 else 4)) < 32768) ->
  snd (link c dummy_linker s2) <> Ok tt.
Proof.
  intros e fuel text s0 s words l s1 s2 t0 t c B SN H OS J VW MO NN NS NO NE PC NT FAR LK.
  destruct (link c dummy_linker s2) as [s3 r] eqn:E. cbn [snd] in LK. subst r.
  destruct (jump_linked e fuel text s0 s words l s1 s2 s3 t0 t B SN H OS J VW MO NN NS NO NE PC NT E) as (a & op & lo & A & I & RG & _).
  exact (FAR a op A I RG).
Qed.
Print Assumptions C69_too_far.

(** ** C70 *)

(** The mode is one of the three, whatever has been assembled and linked. *)
Definition mode_kept (s s' : st) : Prop := In (x86_bits s) [16; 32; 64] -> In (x86_bits s') [16; 32; 64].
Lemma bits_known : forall e k f, dget str_eqb (c_directives (x86 e)) k = Some (D_custom f) -> f = x86_directive_bits.
Proof.
  intros e k f D. unfold x86, mk_cfg in D. cbn [c_directives] in D. apply CartFacts.registered in D. destruct D as [D|[D|[]]]; [|injection D as <-; reflexivity].
  exfalso. apply dget_In in D. vm_compute in D. intuition discriminate.
Qed.
Lemma bits_kept : forall tokens s, mode_kept s (fst (x86_directive_bits tokens s)).
Proof.
  intros tokens s I. unfold x86_directive_bits, tok_at. destruct (nth_error tokens 1) as [t|]; [|exact I]. unfold bind, ret, m_parse_integer.
  destruct (parse_integer x86_p (labels s) t 8 false) as [[v|]|x]; try exact I.
  destruct ((v =? 16) || (v =? 32) || (v =? 64)) eqn:T; [|exact I]. cbn. repeat (apply orb_prop in T; destruct T as [T|T]); apply Z.eqb_eq in T; auto.
Qed.
Lemma mode_plugins : forall e, plugins_keep mode_kept (x86 e).
Proof.
  intros e. split; intros k f tokens s D.
  - destruct (proj1 (x86_fits e)) as (H & _). destruct (H k f D tokens s) as (ds & r & -> & _). cbn [fst]. intros I. rewrite referring_same. exact I.
  - rewrite (bits_known e k f D). apply bits_kept.
Qed.
Theorem C70_modes : forall e defs s, history (x86 e) (fun lk => lk = dummy_linker) (init_st defs) s -> In (x86_bits s) [16; 32; 64].
Proof.
  intros e defs s H. apply (history_keep mode_kept (x86 e) (fun lk => lk = dummy_linker)) with (a := init_st defs); auto.
  - intros a I. exact I.
  - intros a b d X Y I. auto.
  - destruct (mode_plugins e) as [P1 P2]. intros a b X. destruct X; try (intros I; exact I); try (intros I; cbv zeta; close_eq; exact I); [eapply P1; eassumption|].
    match goal with A : registered _ _ _ |- _ => destruct A as (k' & D) end. exact (P2 _ _ _ _ D).
  - intros s1 out I. exact I.
  - intros m s' I. destruct I.
  - intros lk ->. split; intros; intros I; exact I.
  - cbn. auto.
Qed.
Print Assumptions C70_modes.

(** .bits accepts exactly a number that is one of the three, and does nothing but set the mode. *)
Theorem C70_bits : forall e fuel l s s' t0 op rest op' rest', upper t0 = #".BITS" -> reads s (op :: rest) (op' :: rest') ->
  exec (x86 e) fuel [Stmt KDirective (t0 :: op :: rest) l] s = (s', Ok tt) <->
  exists v, num x86_p s op' 8 false v /\ In v [16; 32; 64] /\ s' = set_x86_bits s v.
Proof.
  intros e fuel l s s' t0 op rest op' rest' U R.
  assert (NM : names (x86 e) t0 (D_custom x86_directive_bits)).
  { assert (K : upper (skipn 1 t0) = #"BITS").
    { destruct t0 as [|c t0]; [discriminate U|]. cbn [skipn]. unfold upper in *. cbn [map] in U. injection U as _ U. exact U. }
    unfold names. assert (CS : case_sensitive (c_p (x86 e)) = false) by reflexivity. rewrite CS. clear CS. revert K. generalize (upper (skipn 1 t0)). intros k ->. reflexivity. }
  assert (X : exec (x86 e) fuel [Stmt KDirective (t0 :: op :: rest) l] s = x86_directive_bits (t0 :: op' :: rest') s).
  { unfold exec, iter. unfold bind. rewrite (directive_run _ _ _ _ _ _ _ _ _ NM R). cbn [run_directive].
    destruct (x86_directive_bits _ s) as [s1 [[]|x]]; reflexivity. }
  rewrite X. unfold x86_directive_bits, bind, tok_at, m_parse_integer, num. cbn [nth_error]. unfold ret at 1. cbv iota beta.
  destruct (parse_integer x86_p (labels s) op' 8 false) as [[v|]|x].
  - destruct ((v =? 16) || (v =? 32) || (v =? 64)) eqn:T.
    + unfold modify. split.
      * intros E. injection E as <-. exists v. split; [reflexivity|]. split; [|reflexivity]. repeat (apply orb_prop in T; destruct T as [T|T]); apply Z.eqb_eq in T; cbn; auto.
      * intros (w & E & _ & ->). injection E as <-. reflexivity.
    + split; [discriminate|]. intros (w & E & I & _). injection E as <-. destruct I as [<- |[<- |[<- |[]]]]; discriminate T.
  - split; [discriminate|]. intros (w & E & _). discriminate E.
  - split; [discriminate|]. intros (w & E & _). discriminate E.
Qed.
Print Assumptions C70_bits.

(** ** Concrete cases *)
Definition xx := x86 demo_env.
Definition x_run (l : list string) : st * res unit := assemble xx 5 (lines l) (init_st []).
Definition x_done (l : list string) : option bytes :=
  match x_run l with (s, Ok _) => match link xx dummy_linker s with (s', Ok _) => Some (assembled s') | _ => None end | _ => None end.
Lemma is_value : forall t, str_in (upper t) (bytes_regs ++ words_regs ++ doubles_regs ++ quads_regs ++ control_regs ++ segs_regs ++ [#"["; #"]"]) = false -> value_word t.
Proof.
  intros t H. assert (X : forall w, In w (bytes_regs ++ words_regs ++ doubles_regs ++ quads_regs ++ control_regs ++ segs_regs ++ [#"["; #"]"]) -> upper t <> w).
  { intros w I E. subst w. apply str_in_In in I. rewrite I in H. discriminate. }
  split; [|split].
  - intros I. apply (X (upper t)); [|reflexivity]. rewrite !in_app_iff in *. tauto.
  - intros ->. apply (X #"["); [apply str_in_In; reflexivity|reflexivity].
  - intros ->. apply (X #"]"); [apply str_in_In; reflexivity|reflexivity].
Qed.
Definition form_eqb (f g : form) : bool :=
  match f, g with
  | RmReg, RmReg | RegRm, RegRm | AccImm, AccImm | OpImm, OpImm | OpReg, OpReg | Stack, Stack | CtlReg, CtlReg | RegCtl, RegCtl | RegAddr, RegAddr | Rel, Rel => true
  | Alone m1 z1, Alone m2 z2 => bytes_eqb m1 m2 && match z1, z2 with None, None => true | Some a, Some b => a =? b | _, _ => false end
  | _, _ => false
  end.
Lemma form_eq : forall f g, form_eqb f g = true -> f = g.
Proof.
  intros f g H. destruct f, g; try discriminate H; try reflexivity. cbn [form_eqb] in H. apply andb_prop in H. destruct H as [H1 H2]. apply bytes_eq in H1. subst.
  destruct size as [a|], size0 as [b|]; try discriminate H2; [apply Z.eqb_eq in H2; subst|]; reflexivity.
Qed.
Lemma listed : forall m op f l, existsb (fun x => str_eqb (fst x) m && bytes_eqb (fst (snd x)) op && form_eqb (snd (snd x)) f) l = true -> In (m, (op, f)) l.
Proof.
  intros m op f l H. rewrite existsb_exists in H. destruct H as ([m' [op' f']] & I & Q). cbn [fst snd] in Q. apply andb_prop in Q. destruct Q as [Q Q3]. apply andb_prop in Q. destruct Q as [Q1 Q2].
  apply str_eqb_eq in Q1. apply bytes_eq in Q2. apply form_eq in Q3. subst. exact I.
Qed.
Lemma reg_written : forall size n t os ops l, (size, l) = (16, words_regs) \/ (size, l) = (32, doubles_regs) \/ (size, l) = (64, quads_regs) -> nth_of l n (upper t) -> written os ops -> written (Reg size n :: os) (t :: ops).
Proof. intros size n t os ops l [E|[E|E]] N W; injection E as -> ->; (eapply (w_cons _ _ [t]); [constructor; exact N|exact W]). Qed.
Ltac reg16 := eapply reg_written; [left; reflexivity|split; [lia|reflexivity]|].
Ltac reg32 := eapply reg_written; [right; left; reflexivity|split; [lia|reflexivity]|].
Ltac reg64 := eapply reg_written; [right; right; reflexivity|split; [lia|reflexivity]|].
Lemma val_written : forall t os ops, value_word t -> written os ops -> written (Val t :: os) (t :: ops).
Proof. intros t os ops V W. apply (w_cons (Val t) os [t] ops); [constructor; exact V|exact W]. Qed.
Lemma mem_written : forall m ws os ops, nth_of combos m (map upper ws) -> written os ops -> written (Mem m None :: os) ((#"[" :: ws ++ [#"]"]) ++ ops).
Proof. intros. apply w_cons; [constructor; assumption|assumption]. Qed.
Ltac lst := apply listed; vm_compute; reflexivity.
Ltac lit := split; [repeat (constructor; [unfold is_byte; lia|]); constructor|split; reflexivity].

Definition s16 : st := set_x86_bits (init_st []) 16.
Definition c67_text : list string :=
  [".bits 16"; "add ax, [bx + si]"; "mov eax, 5"; "mov [bp - 2], cx"; "or bx, cx"; "rep movsb"; "stosd"; "mov cr0, eax"; ".bits 64"; "push rbx"; "mov ax, x"; "jz 5"; "x: nop"]%string.
Example C67_example :
  In (x86_bits s16) [16; 32; 64] /\ pc s16 = 0 /\
  opcode_stmt xx s16 [#"add"; #"ax"; #"["; #"bx"; #"+"; #"si"; #"]"] #"add" [#"ax"; #"["; #"bx"; #"+"; #"si"; #"]"] /\
  encoded x86_p s16 #"ADD" [#"ax"; #"["; #"bx"; #"+"; #"si"; #"]"] [0x03; 0x00] [] /\
  encoded x86_p s16 #"MOV" [#"eax"; #"5"] [0x66; 0xB8; 5; 0; 0; 0] [] /\
  encoded x86_p s16 #"MOV" [#"["; #"bp"; #"-"; #"2"; #"]"; #"cx"] [0x89; 0x8E; 0xFE; 0xFF] [] /\
  encoded x86_p s16 #"OR" [#"bx"; #"cx"] [0x09; 0xCB] [] /\ encoded x86_p s16 #"OR" [#"bx"; #"cx"] [0x0B; 0xD9] [] /\
  encoded x86_p s16 #"REP" [#"movsb"] [0xF3; 0xA4] [] /\ encoded x86_p s16 #"STOSD" [] [0x66; 0xAB] [] /\
  encoded x86_p s16 #"MOV" [#"cr0"; #"eax"] [0x0F; 0x22; 0xC0] [] /\
  encoded x86_p (init_st []) #"PUSH" [#"rbx"] [0x53] [] /\
  encoded x86_p (init_st []) #"MOV" [#"ax"; #"x"] [0x66; 0xB8; 0; 0] [ref #"x" 2 16 2 0] /\
  encoded x86_p (init_st []) #"JZ" [#"5"] [0x0F; 0x84; 5; 0; 0; 0] [] /\
  x_done c67_text = Some [0x03; 0x00; 0x66; 0xB8; 5; 0; 0; 0; 0x89; 0x8E; 0xFE; 0xFF; 0x09; 0xCB; 0xF3; 0xA4; 0x66; 0xAB; 0x0F; 0x22; 0xC0;
    0x53; 0x66; 0xB8; 0x20; 0; 0x0F; 0x84; 5; 0; 0; 0; 0x90].
Proof.
  split; [cbn; auto|]. split; [reflexivity|]. split; [apply plain_stmt; reflexivity|].
  split. { apply (n_plain _ _ _ _ _ _ [0x03] RegRm [Reg 16 0; Mem 0 None]); [lst|reg16; apply (mem_written 0 [#"bx"; #"+"; #"si"] [] []); [split; [lia|reflexivity]|constructor]|].
    apply (e_reg_rm x86_p s16 _ _ [0x03] 16 (Mem 0 None) 0 0 0 []); [cbn; auto|constructor; [reflexivity|lia]]. }
  split. { apply (n_plain _ _ _ _ _ _ [0xB8] OpImm [Reg 32 0; Val #"5"]); [lst|reg32; apply val_written; [apply is_value; reflexivity|constructor]|].
    apply (e_op_imm x86_p s16 _ _ 0xB8 32 0 #"5" [5; 0; 0; 0] []); [cbn; auto|apply (i_num _ _ _ _ _ 5); [reflexivity|lit]]. }
  split. { apply (n_plain _ _ _ _ _ _ [0x89] RmReg [Mem 6 (Some #"-2"); Reg 16 1]); [lst| |].
    - apply (w_cons (Mem 6 (Some #"-2")) [Reg 16 1] [#"["; #"bp"; #"-"; #"2"; #"]"] [#"cx"]); [apply (w_minus 6 [#"bp"] #"2"); [split; [lia|reflexivity]|apply is_value; reflexivity]|reg16; constructor].
    - apply (e_rm_reg x86_p s16 _ _ [0x89] 16 (Mem 6 (Some #"-2")) 1 2 6 [0xFE; 0xFF]); [cbn; auto|]. apply (p_disp _ _ _ _ _ (-2)); [reflexivity|reflexivity|reflexivity|lit]. }
  split. { apply (n_plain _ _ _ _ _ _ [0x09] RmReg [Reg 16 3; Reg 16 1]); [lst|reg16; reg16; constructor|].
    apply (e_rm_reg x86_p s16 _ _ [0x09] 16 (Reg 16 3) 1 3 3 []); [cbn; auto|constructor]. }
  split. { apply (n_plain _ _ _ _ _ _ [0x0B] RegRm [Reg 16 3; Reg 16 1]); [lst|reg16; reg16; constructor|].
    apply (e_reg_rm x86_p s16 _ _ [0x0B] 16 (Reg 16 1) 3 3 1 []); [cbn; auto|constructor]. }
  split. { apply (n_repeat _ _ _ _ #"REP" 0xF3 #"movsb" [0xA4] (Alone all_modes None) [0xA4]); [left; reflexivity|lst|]. apply (e_alone x86_p s16 _ _ [0xA4] all_modes None). cbn. auto. }
  split. { apply (n_plain _ _ _ _ _ _ [0xAB] (Alone all_modes (Some 32)) []); [lst|constructor|]. apply (e_alone x86_p s16 _ _ [0xAB] all_modes (Some 32)). cbn. auto. }
  split. { apply (n_plain _ _ _ _ _ _ [0x0F; 0x22] CtlReg [Ctl 0; Reg 32 0]); [lst| |].
    - apply (w_cons (Ctl 0) [Reg 32 0] [#"cr0"] [#"eax"]); [constructor; split; [lia|reflexivity]|reg32; constructor].
    - apply (e_ctl_reg x86_p s16 _ _ [0x0F; 0x22] 0 0); cbn; auto. }
  split. { apply (n_plain _ _ _ _ _ _ [0x50] Stack [Reg 64 3]); [lst|reg64; constructor|]. apply (e_stack x86_p (init_st []) _ _ 0x50 64 3). right. split; reflexivity. }
  split. { apply (n_plain _ _ _ _ _ _ [0xB8] OpImm [Reg 16 0; Val #"x"]); [lst|reg16; apply val_written; [apply is_value; reflexivity|constructor]|].
    apply (e_op_imm x86_p (init_st []) _ _ 0xB8 16 0 #"x" [0; 0] [ref #"x" 2 16 2 0]); [cbn; auto|apply (i_name x86_p (init_st []) 2 2 #"x"); reflexivity]. }
  split. { apply (n_plain _ _ _ _ _ _ [0x0F; 0x84] Rel [Val #"5"]); [lst|apply val_written; [apply is_value; reflexivity|constructor]|].
    apply (e_rel x86_p (init_st []) _ _ [0x0F; 0x84] #"5" [5; 0; 0; 0] []). apply (d_num _ _ _ _ _ 5); [reflexivity|lit]. }
  vm_compute. reflexivity.
Qed.
Definition c68_text : str := lines [".bits 16"; ".org 0x100"; "start: mov ax, start"; "jnz start"; "call next"; "next: nop"]%string.
Definition s68 : st := set_labels (set_org (set_x86_bits (init_st []) 16) 0x100 0 0) [(#"start", MkLabel 0 0x100 None)].
Example C68_example :
  let s := fst (exec xx 5 (firstn 3 (stmts_of c68_text)) (init_st [])) in
  let x := Stmt KInstruction [#"mov"; #"ax"; #"start"] 3 in
  let s2 := fst (assemble xx 5 c68_text (init_st [])) in
  passes_through xx 5 c68_text (init_st []) s x (fst (exec xx 5 [x] s)) s2 /\ opcode_stmt xx s [#"mov"; #"ax"; #"start"] #"mov" [#"ax"; #"start"] /\ no_text s2 /\
  encoded x86_p s #"MOV" [#"ax"; #"start"] [0xB8; 0; 0] [ref #"start" 2 16 1 0] /\ resolved x86_p s s2 #"MOV" [#"ax"; #"start"] [0xB8; 0x00; 0x01] /\
  exists s3, link xx dummy_linker s2 = (s3, Ok tt) /\ assembled s3 = [0xB8; 0x00; 0x01; 0x0F; 0x85; 0xF9; 0xFF; 0xE8; 0; 0; 0x90].
Proof.
  cbv zeta. split; [reached 3%nat|]. set (s := fst (exec xx 5 (firstn 3 (stmts_of c68_text)) (init_st []))).
  assert (S : s = s68) by (vm_compute; reflexivity).
  clearbody s. subst s. split; [apply plain_stmt; reflexivity|]. split; [untexted|].
  split. { apply (n_plain _ _ _ _ _ _ [0xB8] OpImm [Reg 16 0; Val #"start"]); [lst|reg16; apply val_written; [apply is_value; reflexivity|constructor]|].
    apply (e_op_imm x86_p s68 _ _ 0xB8 16 0 #"start" [0; 0] [ref #"start" 2 16 1 0]); [cbn; auto|apply (i_name x86_p s68 2 1 #"start"); reflexivity]. }
  split; [|linked].
  apply (n_plain _ _ _ _ _ _ [0xB8] OpImm [Reg 16 0; Val #"start"]); [lst|reg16; apply val_written; [apply is_value; reflexivity|constructor]|].
  apply (e_op_imm x86_p s68 _ _ 0xB8 16 0 #"start" [0x00; 0x01] []); [cbn; auto|]. apply (i2_name _ _ _ _ _ _ 0x100); [reflexivity|vm_compute; reflexivity|cbn; lia|lit].
Qed.
Example C69_example :
  let s := fst (exec xx 5 (firstn 4 (stmts_of c68_text)) (init_st [])) in
  let x := Stmt KInstruction [#"jnz"; #"start"] 4 in
  let s2 := fst (assemble xx 5 c68_text (init_st [])) in
  passes_through xx 5 c68_text (init_st []) s x (fst (exec xx 5 [x] s)) s2 /\ opcode_stmt xx s [#"jnz"; #"start"] #"jnz" [#"start"] /\ In #"JNZ" jumps /\
  value_word #"start" /\ x86_bits s = 16 /\ not_num x86_p s #"start" 16 true /\ no_select #"start" /\ no_ops #"start" /\ pc s = 0x103 /\
  address_of (labels s2) #"start" 0x100 /\ lands 16 #"JNZ" 0x103 [0x0F; 0x85; 0xF9; 0xFF] 0x100.
Proof.
  cbv zeta. split; [reached 4%nat|]. set (s := fst (exec xx 5 (firstn 4 (stmts_of c68_text)) (init_st []))).
  assert (S : s = set_labels_addresses (set_counter (set_assembled (set_labels (set_org (set_x86_bits (init_st []) 16) 0x100 0 0) [(#"start", MkLabel 0 0x100 None)]) [0xB8; 0; 0]) 3)
    [(1, ref #"start" 2 16 1 0)]) by (vm_compute; reflexivity).
  clearbody s. subst s. split; [apply plain_stmt; reflexivity|]. split; [apply str_in_In; reflexivity|]. split; [apply is_value; reflexivity|]. split; [reflexivity|]. split; [reflexivity|].
  split; [intros c t E; injection E as <- _; split; discriminate|]. split; [repeat (constructor; [vm_compute; intuition discriminate|]); constructor|].
  split; [reflexivity|]. split; [eexists; split; vm_compute; reflexivity|].
  apply (la 16 #"JNZ" 0x103 [0x0F; 0x85] [0xF9; 0xFF]); [lst|repeat (constructor; [unfold is_byte; lia|]); constructor|reflexivity].
Qed.
(** A jump out of reach. *)
Example C69_far :
  let text := lines [".bits 16"; "jz away"; ".org 0x9000"; "away: nop"]%string in
  let x := Stmt KInstruction [#"jz"; #"away"] 2 in
  let s2 := fst (assemble xx 5 text (init_st [])) in
  passes_through xx 5 text (init_st []) s16 x (fst (exec xx 5 [x] s16)) s2 /\ In #"JZ" jumps /\
  (forall a op, address_of (labels s2) #"away" a -> In (#"JZ", (op, Rel)) manual -> ~ -32768 <= a - (pc s16 + zlen op + 2) < 32768) /\
  fine (snd (link xx dummy_linker s2)) = false.
Proof.
  cbv zeta. split; [reached 1%nat|]. split; [apply str_in_In; reflexivity|]. split; [|vm_compute; reflexivity].
  intros a op (d & D & A) I. vm_compute in D. injection D as <-. vm_compute in A. subst a.
  assert (K : forallb (fun x => negb (str_eqb (fst x) #"JZ") || bytes_eqb (fst (snd x)) [0x0F; 0x84]) manual = true) by (vm_compute; reflexivity).
  rewrite forallb_forall in K. specialize (K _ I). cbn [fst snd] in K. apply orb_prop in K. destruct K as [K|K]; [discriminate K|]. apply bytes_eq in K. subst op. vm_compute. intuition discriminate.
Qed.
Example C70_example :
  history xx (fun lk => lk = dummy_linker) (init_st []) (fst (x_run [".Bits 0x20"]%string)) /\ x86_bits (fst (x_run [".Bits 0x20"]%string)) = 32 /\
  upper #".Bits" = #".BITS" /\ num x86_p (init_st []) #"0x20" 8 false 32 /\ reads (init_st []) [#"0x20"] [#"0x20"].
Proof.
  split; [apply h_assemble; constructor|]. split; [vm_compute; reflexivity|]. split; [reflexivity|]. split; [vm_compute; reflexivity|].
  apply (reads_self (init_st [])).
Qed.

(** ** Findings *)

(** 64-bit registers are taken for those of 32 bits, also as destination of an immediate value
    of eight bytes; registers of different size are accepted; what follows the operands is
    ignored; a 64-bit register is pushed in 32-bit mode. *)
Definition c67_findings : list (list string * option bytes) := [
  (["mov rax, rbx"], Some [0x89; 0xD8]); (["mov eax, ebx"], Some [0x89; 0xD8]); (["mov rax, 5"], Some [0xB8; 5; 0; 0; 0; 0; 0; 0; 0]);
  ([".bits 32"; "add ax, ebx"], Some [0x66; 0x01; 0xD8]); ([".bits 32"; "add eax, ebx, ecx, 5"], Some [0x01; 0xD8]); ([".bits 32"; "push rax"], Some [0x50]);
  (* instructions without the byte of their operands *)
  ([".bits 32"; "cmp eax, ebx"], Some [0x39]); ([".bits 32"; "cmp eax, 5"], Some [0x39]); ([".bits 32"; "test eax, ebx"], Some [0x85]); ([".bits 32"; "inc eax"], Some [0xFF]);
  ([".bits 32"; "not eax"], Some [0xF7]); ([".bits 32"; "xchg eax, ebx"], Some [0x87]); ([".bits 32"; "add ebx, 5"], Some [0x81; 5; 0; 0; 0]);
  ([".bits 32"; "imul eax, ebx, 5"], Some [0x69; 0xC3]);
  (* two-byte instructions without operands lose their first byte, others a prefix or a last byte *)
  (["cpuid"], Some [0xA2]); (["syscall"], Some [0x05]); (["rdtsc"], Some [0x31]); (["fsin"], Some [0xD9]); (["fld1"], Some [0xD9]); ([".bits 32"; "popcnt eax, ebx"], Some [0x0F; 0xB8; 0xC3]);
  (["pause"], Some [0x90]); (["retn"], Some [0xC2]); (["aam"], Some [0xD4]); (["iretq"], Some [0xCF]); (["cqo"], Some [0x99]); ([".bits 16"; "cwde"], Some [0x98]);
  ([".bits 16"; "movsd"], Some [0xA5]); ([".bits 16"; "movsw"], Some [0xA5]);
  (* LGDT and LIDT are SGDT *)
  ([".bits 16"; "lgdt [0x1234]"], Some [0x0F; 0x01; 0x06; 0x34; 0x12]); ([".bits 16"; "lidt [0x1234]"], Some [0x0F; 0x01; 0x06; 0x34; 0x12]);
  (* memory: the 16-bit codes in all modes, [BP], a name as displacement *)
  ([".bits 32"; "mov eax, [ebx]"], Some [0x8B; 0x07]); (["mov rax, [rsi]"], Some [0x8B; 0x04]); ([".bits 16"; "mov ax, [bp]"], Some [0x8B; 0x06]);
  ([".bits 16"; "mov eax, [bx + 5]"], Some [0x66; 0x8B; 0x87; 5; 0; 0; 0]); ([".bits 16"; ".org 0x1234"; "v: mov ax, [bx + v]"], Some [0x8B; 0xB7; 0x12; 0x00]);
  (* nothing with bytes, no short jumps, no shifts *)
  ([".bits 32"; "mov al, 5"], None); ([".bits 32"; "push eax"], None); (["loop x"; "x: nop"], None); (["int 0x80"], None); (["shl eax, 1"], None); (["sub rax, 5"], None)
]%string.
Theorem C67_findings_refuted : map (fun x => x_done (fst x)) c67_findings = map snd c67_findings.
Proof. vm_compute. reflexivity. Qed.
Print Assumptions C67_findings_refuted.
(** Instructions without operands of which one byte is left: name, code of the manual, and that
    byte. *)
Definition torn : list (str * (bytes * Z)) :=
  map (fun '(n, k) => (n, ([0x0F; k], k)))
    [(#"SYSCALL", 0x05); (#"CLTS", 0x06); (#"SYSRET", 0x07); (#"INVD", 0x08); (#"WBINVD", 0x09); (#"UD2", 0x0B); (#"WRMSR", 0x30); (#"RDTSC", 0x31);
     (#"RDMSR", 0x32); (#"RDPMC", 0x33); (#"SYSENTER", 0x34); (#"SYSEXIT", 0x35); (#"GETSEC", 0x37); (#"EMMS", 0x77); (#"CPUID", 0xA2); (#"RSM", 0xAA)] ++
  map (fun '(n, k) => (n, ([0x0F; 0x01; k], 0x01)))
    [(#"VMCALL", 0xC1); (#"VMLAUNCH", 0xC2); (#"VMRESUME", 0xC3); (#"VMXOFF", 0xC4); (#"MONITOR", 0xC8); (#"MWAIT", 0xC9); (#"XGETBV", 0xD0); (#"XSETBV", 0xD1);
     (#"SWAPGS", 0xF8); (#"RDTSCP", 0xF9)] ++
  map (fun '(n, k) => (n, ([0x0F; 0xAE; k], 0xAE))) [(#"LFENCE", 0xE8); (#"MFENCE", 0xF0); (#"SFENCE", 0xF8)] ++
  map (fun '(n, k) => (n, ([0xD9; k], 0xD9)))
    [(#"FNOP", 0xD0); (#"FCHS", 0xE0); (#"FABS", 0xE1); (#"FTST", 0xE4); (#"FXAM", 0xE5); (#"FLD1", 0xE8); (#"FLDL2T", 0xE9); (#"FLDL2E", 0xEA); (#"FLDPI", 0xEB);
     (#"FLDLG2", 0xEC); (#"FLDLN2", 0xED); (#"FLDZ", 0xEE); (#"F2XM1", 0xF0); (#"FYL2X", 0xF1); (#"FPTAN", 0xF2); (#"FPATAN", 0xF3); (#"FXTRACT", 0xF4);
     (#"FPREM1", 0xF5); (#"FDECSTP", 0xF6); (#"FINCSTP", 0xF7); (#"FPREM", 0xF8); (#"FYL2XP1", 0xF9); (#"FSQRT", 0xFA); (#"FSINCOS", 0xFB); (#"FRNDINT", 0xFC);
     (#"FSCALE", 0xFD); (#"FSIN", 0xFE); (#"FCOS", 0xFF)] ++
  [(#"FUCOMPP", ([0xDA; 0xE9], 0xDA)); (#"FNCLEX", ([0xDB; 0xE2], 0xDB)); (#"FNINIT", ([0xDB; 0xE3], 0xDB)); (#"FCLEX", ([0x9B; 0xDB; 0xE2], 0xDB));
   (#"FINIT", ([0x9B; 0xDB; 0xE3], 0xDB)); (#"FCOMPP", ([0xDE; 0xD9], 0xDE)); (#"AAM", ([0xD4; 0x0A], 0xD4)); (#"AAD", ([0xD5; 0x0A], 0xD5))].
Definition torn_ok (tab : list (str * list (Z * list arg))) : bool :=
  forallb (fun '(m, (code, k)) => match dget str_eqb tab m with
    | Some rows => match bare_row rows with
        | Some k' => match pack_byte [Some k'] with Ok b => bytes_eqb b [k] | Err _ => false end &&
            negb (str_in m x_implicit32) && negb (starts_with #"REP" m)
        | None => false end
    | None => false end) torn.
Lemma torn_checked : torn_ok x86_opcodes = true. Proof. vm_cast_no_check (eq_refl true). Qed.
Strategy expand [torn_ok].
Lemma torn_call : forall rep t rows k k' s, bare_row rows = Some k' -> pack_byte [Some k'] = Ok [k] -> str_in (upper t) x_implicit32 = false ->
  starts_with #"REP" (upper t) = false -> x_conditions rep [t] rows s = (s, Ok (Some [k])).
Proof.
  intros rep t rows k k' s BR P NI NR. induction rows as [|[code args] rows IH]; [discriminate BR|]. unfold bare_row in BR. cbn [find snd] in BR. destruct args as [|a args].
  - cbn [option_map fst] in BR. injection BR as ->. cbn [x_conditions]. unfold bind at 1. unfold tok_at. cbn [nth_error]. unfold ret at 1. rewrite get_step, NI, NR.
    cbn [andb length Nat.eqb]. unfold bind, lift. rewrite P. reflexivity.
  - cbn [x_conditions length Nat.ltb Nat.leb]. apply IH. exact BR.
Qed.
Lemma x86_does : forall e s words t0 ops rows b ds, opcode_stmt (x86 e) s words t0 ops -> dget str_eqb x86_opcodes (upper t0) = Some rows ->
  (forall rep, x_conditions rep (t0 :: ops) rows s = (referring s ds, Ok (Some b))) -> assembles (x86 e) s words b ds.
Proof.
  intros e s words t0 ops rows b ds OS D C fuel l. rewrite (exec_opcode _ _ _ _ _ _ _ OS). change (op_key (x86 e) t0) with (upper t0).
  rewrite (opcode_fun _ _ _ (x86_call rows)) by (rewrite x86_get, D; reflexivity). destruct (call_some rows (t0 :: ops)) as (rep & ->). rewrite C.
  eexists. split; [reflexivity|]. unfold emitted. reflexivity.
Qed.
Theorem C67_torn_refuted : forall e s words t0 code k, opcode_stmt (x86 e) s words t0 [] -> In (upper t0, (code, k)) torn ->
  assembles (x86 e) s words [k] [] /\ In k code /\ code <> [k].
Proof.
  intros e s words t0 code k OS I. split.
  - pose proof torn_checked as T. unfold torn_ok in T. rewrite forallb_forall in T. specialize (T _ I). cbv beta iota in T.
    destruct (dget str_eqb x86_opcodes (upper t0)) as [rows|] eqn:D; [|discriminate T]. destruct (bare_row rows) as [k'|] eqn:BR; [|discriminate T].
    apply andb_prop in T. destruct T as [T NR]. apply andb_prop in T. destruct T as [T NI]. apply negb_true_iff in NR, NI.
    destruct (pack_byte [Some k']) as [b|] eqn:P; [|discriminate T]. apply bytes_eq in T. subst b.
    apply (x86_does e s words t0 [] rows [k] [] OS D). intros rep. exact (torn_call rep t0 rows k k' s BR P NI NR).
  - assert (K : forallb (fun x => existsb (Z.eqb (snd (snd x))) (fst (snd x)) && negb (bytes_eqb (fst (snd x)) [snd (snd x)])) torn = true) by (vm_compute; reflexivity).
    rewrite forallb_forall in K. specialize (K _ I). cbn [fst snd] in K. apply andb_prop in K. destruct K as [K1 K2]. split.
    + rewrite existsb_exists in K1. destruct K1 as (y & IY & EY). apply Z.eqb_eq in EY. subst y. exact IY.
    + intros ->. apply negb_true_iff in K2. unfold bytes_eqb in K2. destruct (list_eq_dec Z.eq_dec [k] [k]) as [_|N]; [discriminate K2|apply N; reflexivity].
Qed.
Print Assumptions C67_torn_refuted.

(** Instructions that lose their operand: with a register, whatever follows it, prefix and opcode
    are left, and the byte that says which register is missing. *)
Definition blank : list (str * bytes) :=
  [(#"CMP", [0x39]); (#"TEST", [0x85]); (#"NOT", [0xF7]); (#"NEG", [0xF7]);
   (#"INC", [0xFF]); (#"DEC", [0xFF]); (#"BT", [0x0F; 0xA3]); (#"XADD", [0x0F; 0xC1])].
Definition passed (c : Z * list arg) : bool := match snd c with APass :: _ => true | _ => false end.
Definition blank_ok (tab : list (str * list (Z * list arg))) : bool :=
  forallb (fun '(m, op) => match dget str_eqb tab m with
    | Some rows => match find (fun c => negb (passed c)) rows with
        | Some (code, [AEvqp]) => bytes_eqb (x_base code) op && forallb byte_b op
        | _ => false end
    | None => false end) blank.
Lemma blank_checked : blank_ok x86_opcodes = true. Proof. vm_cast_no_check (eq_refl true). Qed.
Strategy expand [blank_ok].
Lemma blank_call : forall rep t0 t rest rows code n size s, find (fun c => negb (passed c)) rows = Some (code, [AEvqp]) -> Forall is_byte (x_base code) ->
  In size [16; 32] -> written1 (Reg size n) [t] ->
  x_conditions rep (t0 :: t :: rest) rows s = (s, Ok (Some (size_prefix (x86_bits s) size ++ x_base code))).
Proof.
  intros rep t0 t rest rows code n size s FI B SZ W. induction rows as [|[code' args] rows IH]; [discriminate FI|]. cbn [find] in FI.
  destruct (passed (code', args)) eqn:P; cbn [negb] in FI.
  - unfold passed in P. cbn [snd] in P. destruct args as [|[] args]; try discriminate P. cbn [x_conditions length Nat.ltb Nat.leb x_run_args x_run_arg].
    unfold bind at 1. unfold bind at 1. unfold ret at 1. unfold ret at 1. exact (IH FI).
  - injection FI as -> ->. cbn [x_conditions length Nat.ltb Nat.leb x_run_args]. unfold bind at 1. unfold bind at 1. fold m0.
    destruct (evqp_first (Reg size n) [t] t0 rest (x_base code) size 3 n [] s W (p_reg _ _ _ n) SZ) as (_ & raw & bits & _ & [-> | ->] & E).
    + exfalso. cbn [app] in E. destruct (one_word _ _ W I) as (t' & Q & FW). injection Q as <-. cbn [first_word] in FW. destruct FW as (_ & _ & R & _).
      cbn [x_run_arg] in E. rewrite tok_first, R, get_step in E. unfold x_sized in E. cbn [xset_rm m0 xm_bits] in E. discriminate E.
    + cbn [app] in E. rewrite E. cbn [ret length]. unfold ret at 1. unfold bind, lift.
      rewrite (pack_bytes (size_prefix (x86_bits s) size ++ x_base code)) by (apply Forall_app; split; [apply prefix_bytes|exact B]).
      unfold ret. rewrite app_nil_r. reflexivity.
Qed.
Theorem C67_blank_refuted : forall e s words t0 t rest op size n, opcode_stmt (x86 e) s words t0 (t :: rest) -> In (upper t0, op) blank ->
  In size [16; 32] -> written1 (Reg size n) [t] -> assembles (x86 e) s words (size_prefix (x86_bits s) size ++ op) [].
Proof.
  intros e s words t0 t rest op size n OS I SZ W. pose proof blank_checked as T. unfold blank_ok in T. rewrite forallb_forall in T. specialize (T _ I). cbv beta iota in T.
  destruct (dget str_eqb x86_opcodes (upper t0)) as [rows|] eqn:D; [|discriminate T]. destruct (find _ rows) as [[code [|[] [|]]]|] eqn:FI; try discriminate T.
  apply andb_prop in T. destruct T as [T B]. apply bytes_eq in T. subst op.
  apply (x86_does e s words t0 (t :: rest) rows _ [] OS D). intros rep. apply (blank_call rep t0 t rest rows code n size s FI); auto. apply byte_bytes. exact B.
Qed.
Print Assumptions C67_blank_refuted.
Example C67_torn_example : opcode_stmt xx s16 [#"rdmsr"] #"rdmsr" [] /\ In (#"RDMSR", ([0x0F; 0x32], 0x32)) torn /\
  opcode_stmt xx s16 [#"dec"; #"ecx"] #"dec" [#"ecx"] /\ In (#"DEC", [0xFF]) blank /\ written1 (Reg 32 1) [#"ecx"] /\
  map x_done [[".bits 16"; "rdmsr"]; [".bits 16"; "dec ecx"]; [".bits 16"; "cmp cx, 7"]; [".bits 16"; "div cx"]; ["div"]]%string =
    [Some [0x32]; Some [0x66; 0xFF]; Some [0x39]; None; Some [0xF6]].
Proof.
  split; [apply plain_stmt; reflexivity|]. split; [cbn; tauto|]. split; [apply plain_stmt; reflexivity|]. split; [cbn; tauto|].
  split; [apply w_32; split; [lia|reflexivity]|vm_compute; reflexivity].
Qed.
(** In 32- and 64-bit mode a jump backward has the upper half of its distance missing: here it
    goes 2^16 bytes too far. A reference after a repeat prefix is one byte too early. *)
Theorem C69_backward_refuted :
  map x_done [[".bits 32"; ".org 0x100"; "top: jmp top"]; ["rep mov eax, v"; "v: nop"]]%string =
    [Some [0xE9; 0xFB; 0xFF; 0x00; 0x00]; Some [0xF3; 0xBE; 0; 0; 0; 0; 0x90]] /\
  lands 32 #"JMP" 0x100 [0xE9; 0xFB; 0xFF; 0x00; 0x00] 0x10100.
Proof.
  split; [vm_compute; reflexivity|]. apply (la 32 #"JMP" 0x100 [0xE9] [0xFB; 0xFF; 0x00; 0x00]); [lst|repeat (constructor; [unfold is_byte; lia|]); constructor|reflexivity].
Qed.
Print Assumptions C69_backward_refuted.
(** .bits without operand fails with an internal error. *)
Theorem C70_bare_refuted : snd (x_run [".bits"]%string) = Err (PExc IndexError).
Proof. vm_compute. reflexivity. Qed.
Print Assumptions C70_bare_refuted.

(** ** C39 *)

Theorem C39_x86 : forall e, fits (x86 e) /\ handlers neat (x86 e).
Proof. exact x86_fits. Qed.
Print Assumptions C39_x86.
