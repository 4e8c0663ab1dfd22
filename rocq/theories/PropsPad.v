(** C19 padding, C20 bounded origins, C21 repetition. *)
From Coq Require Import Lia.
From Verif Require Import Py PyFacts Utils Tokenizer State Assembler SpecUtils UtilsFacts SpecParse ParseFacts
  SpecTok SpecSubst SubstFacts Events SpecExec ExecFacts Demo PropsUtils PropsExec.
Local Open Scope Z_scope.

Lemma number_range : forall c s t bits v, 1 <= bits -> number c s t bits v -> 0 <= v < 2 ^ bits.
Proof. intros c s t bits v B N. apply parse_integer_range in N; auto. apply N. reflexivity. Qed.

Lemma int_arg_number : forall c s t bits v, number c s t bits v -> int_arg (c_p c) t bits s = (s, Ok v).
Proof. intros c s t bits v N. unfold int_arg, m_parse_integer, bind. rewrite N. reflexivity. Qed.

Lemma fill_blob_ok : forall v n, 0 <= v < 256 -> fill_blob v n = Ok (repeat v (Z.to_nat n)).
Proof.
  intros v n V. unfold fill_blob. destruct (n <=? 0) eqn:E.
  - apply Z.leb_le in E. replace (Z.to_nat n) with 0%nat by lia. reflexivity.
  - replace ((0 <=? v) && (v <? 256)) with true; [reflexivity|].
    symmetry. apply andb_true_iff. split; [apply Z.leb_le|apply Z.ltb_lt]; lia.
Qed.

Lemma fill_operand_ok : forall c s t0 t1 ops v, fill_operand c s ops v ->
  (length ops <= 1)%nat /\ 0 <= v < 256 /\ fill_arg (c_p c) (t0 :: t1 :: ops) s = (s, Ok v).
Proof.
  intros c s t0 t1 ops v F. destruct F as [R|t v N].
  - split; [cbn; lia|]. split; [exact R|reflexivity].
  - assert (R : 0 <= v < 256) by (apply (number_range c s t 8 v); [lia|exact N]). split; [cbn; lia|]. split; [exact R|].
    unfold fill_arg. cbn [len_in existsb length Nat.eqb orb tok_at nth_error].
    unfold bind, ret. apply int_arg_number. exact N.
Qed.

Ltac head_args := cbn [tok_at nth_error len_in existsb length Nat.eqb orb negb]; unfold bind at 1, ret at 1.

(** ** C19 *)

(** .fill n emits exactly n bytes of the fill value. *)
Theorem C19_fill : forall c fuel asm t0 ops l s t n rest v, names c t0 D_fill ->
  reads s ops (t :: rest) -> number c s t 64 n -> fill_operand c s rest v ->
  exists s', statement_assemble c fuel asm (Stmt KDirective (t0 :: ops) l) s = (s', Ok tt) /\
    emitted s (repeat v (Z.to_nat n)) s'.
Proof.
  intros c fuel asm t0 ops l s t n rest v N R NT F.
  rewrite (directive_run _ _ _ _ _ _ _ _ _ N R). cbn [run_directive]. unfold directive_fill.
  destruct (fill_operand_ok c s t0 t rest v F) as (LR & V & FA).
  replace (len_in (t0 :: t :: rest) [2; 3]%nat) with true
    by (destruct rest as [|? [|]]; [| |cbn in LR; lia]; reflexivity).
  cbn [negb]. head_args. unfold bind at 1. rewrite (int_arg_number _ _ _ _ _ NT).
  unfold bind at 1. rewrite FA. unfold bind, lift. rewrite fill_blob_ok by auto.
  eexists. split; reflexivity.
Qed.
Print Assumptions C19_fill.

(** .align n (n > 0) pads with the configured byte to the least multiple of n that
    is not below the program counter. *)
Theorem C19_align : forall c fuel asm t0 ops l s t n, names c t0 D_align ->
  reads s ops [t] -> number c s t 64 n -> 0 < n -> 0 <= fill_value (c_p c) < 256 ->
  exists s' k, statement_assemble c fuel asm (Stmt KDirective (t0 :: ops) l) s = (s', Ok tt) /\
    emitted s (repeat (fill_value (c_p c)) k) s' /\
    (n | pc s') /\ pc s <= pc s' /\ forall m, (n | m) -> pc s <= m -> pc s' <= m.
Proof.
  intros c fuel asm t0 ops l s t n N R NT P V.
  rewrite (directive_run _ _ _ _ _ _ _ _ _ N R). cbn [run_directive]. unfold directive_align.
  cbn [len_in existsb length Nat.eqb orb negb]. head_args. unfold bind at 1.
  rewrite (int_arg_number _ _ _ _ _ NT).
  replace (n =? 0) with false by (symmetry; apply Z.eqb_neq; lia).
  unfold bind at 1, get. cbv zeta. fold (pc s).
  pose proof (Z.mod_pos_bound (pc s) n P) as MB. pose proof (Z.div_mod (pc s) n ltac:(lia)) as DM.
  destruct (pc s mod n =? 0) eqn:E; cbn [negb].
  - apply Z.eqb_eq in E. exists s, 0%nat. split; [reflexivity|]. split.
    + unfold emitted. cbn [repeat]. rewrite app_nil_r, zlen_nil, Z.add_0_r. destruct s; reflexivity.
    + split; [exists (pc s / n); lia|]. split; [lia|auto].
  - apply Z.eqb_neq in E. unfold bind, lift. rewrite fill_blob_ok by auto.
    eexists. exists (Z.to_nat (n - pc s mod n)). split; [reflexivity|]. split; [reflexivity|].
    unfold append_assembled_bytes, modify.
    match goal with |- context [pc ?x] => replace (pc x) with (pc s + (n - pc s mod n)) end.
    2:{ symmetry. unfold pc at 1. cbn [current_org org_counter set_counter set_org set_assembled].
        rewrite zlen_repeat, Z2Nat.id by lia. rewrite Z.add_assoc. reflexivity. }
    split; [exists (pc s / n + 1); lia|]. split; [lia|].
    intros m [k ->] L. generalize dependent (pc s / n). intros q DM.
    generalize dependent (pc s mod n). intros r MB E DM. assert (q + 1 <= k) by nia. nia.
Qed.
Print Assumptions C19_align.

(** The target of .goto is an address, the one of .upto an offset from the origin. *)
Definition position (d : directive) (s : st) : Z :=
  match d with D_upto => pc s - current_org s | _ => pc s end.

Lemma goto_run : forall c asm d t0 t rest s n, d = D_goto \/ d = D_upto ->
  number c s t 64 n -> (length rest <= 1)%nat ->
  run_directive c asm d (t0 :: t :: rest) s =
    if n <? zlen (assembled s) then (s, Err (AExc AddressOverlap))
    else (let! value := fill_arg (c_p c) (t0 :: t :: rest) in
          let! blob := lift (fill_blob value (n - position d s)) in
          append_assembled_bytes blob) s.
Proof.
  intros c asm d t0 t rest s n D NT LR.
  assert (L : len_in (t0 :: t :: rest) [2; 3]%nat = true)
    by (destruct rest as [|? [|]]; [| |cbn in LR; lia]; reflexivity).
  destruct D as [-> | ->]; cbn [run_directive]; unfold directive_goto, directive_upto, directive_goto_upto;
    rewrite L; cbn [negb]; head_args; unfold bind at 1; rewrite (int_arg_number _ _ _ _ _ NT);
    unfold bind at 1, get; destruct (n <? zlen (assembled s)); reflexivity.
Qed.

(** .goto and .upto: a target at or beyond the end of the output is reached exactly
    if it is ahead, and otherwise nothing is emitted; they never move backwards. *)
Theorem C19_goto : forall c fuel asm t0 ops l s t n rest v d, d = D_goto \/ d = D_upto -> names c t0 d ->
  reads s ops (t :: rest) -> number c s t 64 n -> fill_operand c s rest v ->
  zlen (assembled s) <= n ->
  exists s' k, statement_assemble c fuel asm (Stmt KDirective (t0 :: ops) l) s = (s', Ok tt) /\
    emitted s (repeat v k) s' /\
    position d s' = Z.max (position d s) n.
Proof.
  intros c fuel asm t0 ops l s t n rest v d D N R NT F L.
  destruct (fill_operand_ok c s t0 t rest v F) as (LR & V & FA).
  rewrite (directive_run _ _ _ _ _ _ _ _ _ N R), (goto_run c asm d t0 t rest s n D NT LR).
  replace (n <? zlen (assembled s)) with false by (symmetry; apply Z.ltb_ge; lia).
  unfold bind at 1. rewrite FA. unfold bind, lift. rewrite fill_blob_ok by auto.
  eexists. exists (Z.to_nat (n - position d s)). split; [reflexivity|]. split; [reflexivity|].
  unfold append_assembled_bytes, modify, position, pc.
  destruct D as [-> | ->]; cbn [current_org org_counter set_counter set_org set_assembled];
    rewrite zlen_repeat; lia.
Qed.
Print Assumptions C19_goto.

(** A target below the end of the output is rejected and changes nothing. *)
Theorem C19_goto_overlap : forall c fuel asm t0 ops l s t n rest v d, d = D_goto \/ d = D_upto -> names c t0 d ->
  reads s ops (t :: rest) -> number c s t 64 n -> fill_operand c s rest v ->
  n < zlen (assembled s) ->
  statement_assemble c fuel asm (Stmt KDirective (t0 :: ops) l) s = (s, Err (AExc AddressOverlap)).
Proof.
  intros c fuel asm t0 ops l s t n rest v d D N R NT F L.
  destruct (fill_operand_ok c s t0 t rest v F) as (LR & V & FA).
  rewrite (directive_run _ _ _ _ _ _ _ _ _ N R), (goto_run c asm d t0 t rest s n D NT LR).
  replace (n <? zlen (assembled s)) with true by (symmetry; apply Z.ltb_lt; lia). reflexivity.
Qed.
Print Assumptions C19_goto_overlap.

(** .ram n moves the program counter by n >= 1 and changes nothing else; n = 0 is
    rejected. *)
Theorem C19_ram : forall c fuel asm t0 ops l s t n, names c t0 D_ram -> reads s ops [t] ->
  number c s t 64 n ->
  statement_assemble c fuel asm (Stmt KDirective (t0 :: ops) l) s =
    if n =? 0 then (s, Err (AExc InvalidArgumentsForDirective))
    else (set_org s (current_org s) (current_org_end s) (org_counter s + n), Ok tt).
Proof.
  intros c fuel asm t0 ops l s t n N R NT. pose proof (number_range c s t 64 n ltac:(lia) NT).
  rewrite (directive_run _ _ _ _ _ _ _ _ _ N R). cbn [run_directive]. unfold directive_ram.
  cbn [len_in existsb length Nat.eqb orb negb]. head_args. unfold bind at 1.
  rewrite (int_arg_number _ _ _ _ _ NT).
  destruct (n =? 0) eqn:E.
  - apply Z.eqb_eq in E. subst. reflexivity.
  - apply Z.eqb_neq in E. replace (n <? 1) with false by (symmetry; apply Z.ltb_ge; lia). reflexivity.
Qed.
Print Assumptions C19_ram.

(** A name instead of a number is rejected, without effect. *)
Theorem C19_names_rejected : forall c fuel asm t0 ops l s t rest d,
  In d [D_fill; D_align; D_goto; D_upto; D_ram; D_org] -> names c t0 d -> reads s ops (t :: rest) ->
  parse_integer (c_p c) (labels s) t 64 false = Ok None ->
  statement_assemble c fuel asm (Stmt KDirective (t0 :: ops) l) s =
    (s, Err (AExc InvalidArgumentsForDirective)).
Proof.
  intros c fuel asm t0 ops l s t rest d D N R NT.
  rewrite (directive_run _ _ _ _ _ _ _ _ _ N R).
  assert (I : int_arg (c_p c) t 64 s = (s, Err (AExc InvalidArgumentsForDirective))).
  { unfold int_arg, m_parse_integer, bind. rewrite NT. reflexivity. }
  cbn [In] in D.
  destruct D as [<-|[<-|[<-|[<-|[<-|[<-|[]]]]]]]; cbn [run_directive];
    unfold directive_fill, directive_align, directive_goto, directive_upto, directive_goto_upto,
      directive_ram, directive_org;
    match goal with |- context [len_in ?a ?b] => destruct (len_in a b) end; cbn [negb]; try reflexivity;
    head_args; unfold bind at 1; rewrite I; reflexivity.
Qed.
Print Assumptions C19_names_rejected.

Example C19_example :
  let s := demo_state [".org $100"; "nop"; "x:"]%string in
  names demo #".align" D_align /\ number demo s #"$10" 64 16 /\ fill_operand demo s [#"7"] 7 /\
  reads s [#"$10"] [#"$10"] /\ pc s = 257 /\
  pc (fst (assemble demo 5 #".align $10" s)) = 272 /\
  assembled (fst (assemble demo 5 #".goto $104 7" s)) = [234; 7; 7; 7] /\
  pc (fst (assemble demo 5 #".goto $104 7" s)) = 260 /\
  assembled (fst (assemble demo 5 #".upto 3" s)) = [234; 0; 0] /\
  snd (assemble demo 5 #".goto 0" s) = Err (AExc AddressOverlap) /\
  parse_integer demo_p (labels s) #"x" 64 false = Ok None.
Proof.
  cbv zeta. split; [vm_compute; reflexivity|]. split; [vm_compute; reflexivity|].
  split; [apply fo_given; vm_compute; reflexivity|]. split; [apply reads_self|].
  repeat (split; [vm_compute; reflexivity|]). vm_compute; reflexivity.
Qed.

(** As worded without the condition on the output length the claim is false: a target
    ahead of the program counter can be rejected, and one behind it be accepted
    without effect. *)
Theorem C19_goto_refuted :
  (exists text s, pc s < 5 /\ text = #".goto 5" /\
     assemble demo 5 text s = (s, Err (AExc AddressOverlap))) /\
  (exists text s, 50 < pc s /\ text = #".goto 50" /\ assemble demo 5 text s = (s, Ok tt)).
Proof.
  split.
  - exists #".goto 5", (demo_state [".fill 10"; ".org 0"]%string). repeat (split; [vm_compute; reflexivity|]).
    vm_compute; reflexivity.
  - exists #".goto 50", (demo_state [".org 100"; "nop"]%string). repeat (split; [vm_compute; reflexivity|]).
    vm_compute; reflexivity.
Qed.
(** .align 0 fails with a raw ZeroDivisionError. *)
Theorem C19_align_zero_refuted : snd (demo_run [".align 0"]%string) = Err (PExc ZeroDivisionError).
Proof. vm_compute. reflexivity. Qed.

(** ** Blocks *)

Lemma exec_app : forall c fuel a b s s1, exec c fuel a s = (s1, Ok tt) ->
  exec c fuel (a ++ b) s = exec c fuel b s1.
Proof.
  intros c fuel a b. unfold exec. induction a as [|x a IH]; intros s s1 H; cbn [app iter] in *.
  - injection H as ->. reflexivity.
  - unfold bind in *. destruct (statement_assemble _ _ _ x s) as [s2 [[]|e]]; [|discriminate]. auto.
Qed.
Lemma exec_app_inv : forall c fuel a b s s2, exec c fuel (a ++ b) s = (s2, Ok tt) ->
  exists s1, exec c fuel a s = (s1, Ok tt) /\ exec c fuel b s1 = (s2, Ok tt).
Proof.
  intros c fuel a b. unfold exec. induction a as [|x a IH]; intros s s2 H; cbn [app iter] in *.
  - exists s. auto.
  - unfold bind in *. destruct (statement_assemble _ _ _ x s) as [s1 [[]|e]]; [|discriminate]. auto.
Qed.
Lemma exec_one : forall c fuel x s, exec c fuel [x] s =
  statement_assemble c fuel (match fuel with O => fun _ => praise RecursionError | S f => assemble c f end) x s.
Proof.
  intros. unfold exec, iter, bind. destruct (statement_assemble _ _ _ x s) as [s2 [[]|e]]; reflexivity.
Qed.

Lemma exec_events : forall c bad fuel ss s, block_free c bad ss ->
  events c (fun d tokens => registered c d tokens /\ ~ bad d (length tokens - 1)%nat) s
    (fst (exec c fuel ss s)).
Proof.
  intros c bad fuel ss s [F1 F2].
  assert (FA : files_allowed c (fun d tokens => registered c d tokens /\ ~ bad d (length tokens - 1)%nat)).
  { intros n t X. apply free_allowed. eapply F2; eauto. }
  apply (runs_iter c _ stmt). intros x s' I. unfold statement_assemble.
  destruct (s_kind x) eqn:K; [apply runs_instruction|apply runs_label|].
  apply runs_directive_assemble.
  - intros d tokens' D L. destruct x as [k tokens ln]. cbn in *. subst k.
    destruct tokens as [|t0 ops]; [discriminate|]. split; [eexists; exact D|].
    rewrite L. cbn [length]. rewrite Nat.sub_succ, Nat.sub_0_r. eapply F1; eauto.
  - intros n code s0 X. destruct fuel.
    + apply runs_reader. apply reader_praise.
    + apply runs_assemble; auto. eapply FA; eauto.
Qed.

Lemma region_kept : forall c fuel ss s, plugins_keep in_region c ->
  block_free c (fun d n => moves_origin d n \/ reserves d n) ss ->
  in_region s (fst (exec c fuel ss s)).
Proof.
  intros c fuel ss s P F.
  apply (events_keep c (fun d tokens => registered c d tokens /\
            ~ (moves_origin d (length tokens - 1)%nat \/ reserves d (length tokens - 1)%nat)) in_region).
  - intros a. unfold in_region, in_step. repeat split; lia.
  - intros a b d (A & B & C) (A' & B' & C'). unfold in_region, in_step in *. repeat split; [lia|congruence|congruence].
  - destruct P as [P1 P2]. intros a b E. destruct E;
      try (unfold in_region, in_step, pc; cbn; rewrite ?zlen_app; repeat split; lia).
    + eapply P1; eauto.
    + destruct H as [[k H] _]. eapply P2; eauto.
    + exfalso. destruct H as [_ N]. apply N. left. destruct H0 as [->|[-> ->]]; [left|right]; auto.
    + exfalso. destruct H as [_ N]. apply N. left. destruct H0 as [->|[-> ->]]; [left|right]; auto.
    + exfalso. destruct H as [_ N]. apply N. right. reflexivity.
    + rewrite close_section_eq. unfold in_region, in_step, pc. cbn. repeat split; lia.
    + cbv zeta. rewrite close_section_eq. unfold in_region, in_step, pc. cbn. repeat split; lia.
  - apply (exec_events c (fun d n => moves_origin d n \/ reserves d n)); auto.
Qed.

(** ** C20 *)

Lemma org_run : forall c asm t0 ta rest s a e, number c s ta 64 a ->
  (rest = [] /\ e = 0 \/ exists te, rest = [te] /\ number c s te 64 e) ->
  run_directive c asm D_org (t0 :: ta :: rest) s = change_org (c_p c) a e s.
Proof.
  intros c asm t0 ta rest s a e NA RE. cbn [run_directive]. unfold directive_org.
  destruct RE as [[-> ->]|(te & -> & NE)]; cbn [len_in existsb length Nat.eqb orb negb]; head_args;
    unfold bind at 1; rewrite (int_arg_number _ _ _ _ _ NA); [reflexivity|].
  unfold bind at 1. head_args. rewrite (int_arg_number _ _ _ _ _ NE). reflexivity.
Qed.

(** A successful .org a [e] starts an empty region at a. *)
Theorem C20_opened : forall c fuel t0 ops l s s' ta rest a e, names c t0 D_org ->
  reads s ops (ta :: rest) -> number c s ta 64 a ->
  (rest = [] /\ e = 0 \/ exists te, rest = [te] /\ number c s te 64 e) ->
  exec c fuel [Stmt KDirective (t0 :: ops) l] s = (s', Ok tt) ->
  pc s' = a /\ current_org s' = a /\ current_org_end s' = e /\ extends (assembled s) (assembled s').
Proof.
  intros c fuel t0 ops l s s' ta rest a e N R NA RE E.
  rewrite exec_one, (directive_run _ _ _ _ _ _ _ _ _ N R), (org_run _ _ _ _ _ _ _ _ NA RE) in E.
  unfold change_org in E. destruct ((0 <? e) && (e <? a)); [discriminate|].
  unfold bind, get, modify, lift, append_raw, modify, araise, raise, ret in E.
  assert (G : forall x, x = set_org s a e 0 \/ (exists b, x = set_assembled (set_org s a e 0) (assembled s ++ b)) ->
     pc x = a /\ current_org x = a /\ current_org_end x = e /\ extends (assembled s) (assembled x)).
  { intros x [->|[b ->]]; unfold pc; cbn; (split; [lia|]); repeat split; [exists []; rewrite app_nil_r; auto|exists b; auto]. }
  apply G.
  repeat match type of E with
  | context [if ?b then _ else _] => destruct b
  | context [match fill_blob ?a ?b with _ => _ end] => destruct (fill_blob a b)
  end; try discriminate; injection E as <-; cbn; eauto.
Qed.
Print Assumptions C20_opened.

(** A region [a, e] filled by a block of statements that neither moves the origin nor
    reserves memory, closed by .org b: it occupies in the output the bytes of the block
    padded up to b or to the end of the region, whichever comes first. *)
Theorem C20_region : forall c fuel t0 opsa l1 body t1 opsb l2 s s1 s2 ta te a e tb rest b eb,
  names c t0 D_org -> names c t1 D_org -> 0 <= fill_value (c_p c) < 256 ->
  plugins_keep in_region c -> block_free c (fun d n => moves_origin d n \/ reserves d n) body ->
  reads s opsa [ta; te] -> number c s ta 64 a -> number c s te 64 e -> 0 < e ->
  exec c fuel [Stmt KDirective (t0 :: opsa) l1] s = (s1, Ok tt) ->
  exec c fuel body s1 = (s2, Ok tt) ->
  reads s2 opsb (tb :: rest) -> number c s2 tb 64 b ->
  (rest = [] /\ eb = 0 \/ exists te', rest = [te'] /\ number c s2 te' 64 eb) ->
  (eb = 0 \/ b <= eb) -> a < b -> pc s2 <= b ->
  exists s', exec c fuel [Stmt KDirective (t1 :: opsb) l2] s2 = (s', Ok tt) /\
    pc s' = b /\ current_org s' = b /\ current_org_end s' = eb /\
    pc s2 - a = zlen (assembled s2) - zlen (assembled s1) /\
    assembled s' = assembled s2 ++ repeat (fill_value (c_p c)) (Z.to_nat (Z.min b (e + 1) - pc s2)) /\
    (pc s2 <= e + 1 -> zlen (assembled s') - zlen (assembled s1) = Z.min b (e + 1) - a).
Proof.
  intros c fuel t0 opsa l1 body t1 opsb l2 s s1 s2 ta te a e tb rest b eb
    N0 N1 FV P F RA NA NE EP E1 E2 RB NB RE EB AB PB.
  destruct (C20_opened c fuel t0 opsa l1 s s1 ta [te] a e N0 RA NA) as (PC1 & O1 & OE1 & X1); auto.
  { right. exists te. auto. }
  pose proof (region_kept c fuel body s1 P F) as K. rewrite E2 in K. cbn [fst] in K.
  destruct K as (K1 & K2 & K3). unfold in_step in K1.
  rewrite exec_one, (directive_run _ _ _ _ _ _ _ _ _ N1 RB), (org_run _ _ _ _ _ _ _ _ NB RE).
  unfold change_org.
  replace ((0 <? eb) && (eb <? b)) with false.
  2:{ symmetry. apply andb_false_iff. destruct EB as [->|EB]; [left; reflexivity|right; apply Z.ltb_ge; lia]. }
  unfold bind, get, modify, lift, append_raw, modify, araise, raise, ret.
  fold (pc s2). rewrite K3, OE1, K2, O1.
  replace (0 <? e) with true by (symmetry; apply Z.ltb_lt; lia).
  replace (a + org_counter s2) with (pc s2) by (unfold pc; rewrite K2, O1; reflexivity).
  replace (b <? pc s2) with false by (symmetry; apply Z.ltb_ge; lia).
  destruct (e <? b) eqn:EBL.
  - apply Z.ltb_lt in EBL. rewrite fill_blob_ok by auto. eexists. split; [reflexivity|].
    unfold pc at 1. cbn. rewrite Z.min_r by lia. replace (e + 1 - pc s2) with (e + 1 - pc s2) by lia.
    split; [lia|]. split; [auto|]. split; [auto|]. split; [lia|]. split; [reflexivity|].
    intros L. rewrite zlen_app, zlen_repeat. lia.
  - apply Z.ltb_ge in EBL.
    replace ((b <=? e) && (a <? b)) with true
      by (symmetry; apply andb_true_iff; split; [apply Z.leb_le|apply Z.ltb_lt]; lia).
    rewrite fill_blob_ok by auto. eexists. split; [reflexivity|].
    unfold pc at 1. cbn. rewrite Z.min_l by lia.
    split; [lia|]. split; [auto|]. split; [auto|]. split; [lia|]. split; [reflexivity|].
    intros L. rewrite zlen_app, zlen_repeat. lia.
Qed.
Print Assumptions C20_region.

(** An origin below the current position of a bounded region is rejected: nothing is
    emitted. *)
Theorem C20_overlap : forall c fuel t1 opsb l s tb rest b eb, names c t1 D_org ->
  reads s opsb (tb :: rest) -> number c s tb 64 b ->
  (rest = [] /\ eb = 0 \/ exists te, rest = [te] /\ number c s te 64 eb) ->
  0 < current_org_end s -> b < pc s ->
  exists s', exec c fuel [Stmt KDirective (t1 :: opsb) l] s = (s', Err (AExc AddressOverlap)) /\
    assembled s' = assembled s.
Proof.
  intros c fuel t1 opsb l s tb rest b eb N R NB RE EP L.
  rewrite exec_one, (directive_run _ _ _ _ _ _ _ _ _ N R), (org_run _ _ _ _ _ _ _ _ NB RE).
  unfold change_org. destruct ((0 <? eb) && (eb <? b)); [exists s; auto|].
  unfold bind, get, modify, araise, raise. fold (pc s).
  replace (0 <? current_org_end s) with true by (symmetry; apply Z.ltb_lt; lia).
  replace (b <? pc s) with true by (symmetry; apply Z.ltb_lt; lia).
  eexists. split; reflexivity.
Qed.
Print Assumptions C20_overlap.

(** At the end of assemble() the open region is padded to its end if its last two
    bytes are still free; a region that is full or overflowed is left alone. *)
Theorem C20_end : forall c fuel text ss s s2, tokenize text = Ok ss -> exec c fuel ss s = (s2, Ok tt) ->
  0 <= fill_value (c_p c) < 256 -> 0 < current_org_end s2 -> pc s2 <> current_org_end s2 ->
  exists s', assemble c fuel text s = (s', Ok tt) /\
    pc s' = Z.max (pc s2) (current_org_end s2 + 1) /\
    assembled s' = assembled s2 ++
      repeat (fill_value (c_p c)) (Z.to_nat (current_org_end s2 + 1 - pc s2)).
Proof.
  intros c fuel text ss s s2 T E FV EP NE.
  assert (A : assemble c fuel text s = assemble_tail c s2).
  { destruct fuel; cbn [assemble]; unfold bind, lift; rewrite T; unfold exec in E; rewrite E; reflexivity. }
  rewrite A. unfold assemble_tail. unfold bind, get, modify, lift, ret.
  replace (0 <? current_org_end s2) with true by (symmetry; apply Z.ltb_lt; lia).
  fold (pc s2). destruct (pc s2 <? current_org_end s2) eqn:L.
  - apply Z.ltb_lt in L. rewrite fill_blob_ok by auto. cbn [append_assembled_bytes].
    unfold append_assembled_bytes, modify. eexists. split; [reflexivity|].
    rewrite close_section_eq. unfold pc at 1. cbn. rewrite zlen_repeat, Z2Nat.id by lia.
    split; [unfold pc in *; lia|reflexivity].
  - apply Z.ltb_ge in L. eexists. split; [reflexivity|]. rewrite close_section_eq. unfold pc at 1. cbn.
    fold (pc s2). split; [lia|]. replace (Z.to_nat _) with 0%nat by lia. cbn. rewrite app_nil_r. reflexivity.
Qed.
Print Assumptions C20_end.

Definition c20_body : list stmt := [Stmt KInstruction [#"nop"] 2; Stmt KDirective [#".db"; #"1"; #"2"] 3].
Lemma c20_free : block_free demo (fun d n => moves_origin d n \/ reserves d n) c20_body.
Proof.
  split.
  - intros l t0 ops d I. cbn [c20_body In] in I.
    repeat (destruct I as [I|I]; [try discriminate I; injection I as <- <- _; intros E; vm_compute in E;
      injection E as <-; intros [[H|[H _]]|H]; discriminate|]). contradiction.
  - intros n t H. cbn [demo mk_cfg c_env file_text demo_env] in H.
    destruct (str_eqb n #"inc.s"); [|discriminate]. injection H as <-.
    intros ss l t0 ops d T. vm_compute in T. injection T as <-.
    intros I. cbn [In] in I. repeat (destruct I as [I|I]; [discriminate I|]). contradiction.
Qed.
Example C20_example :
  let s := demo_state ["nop"]%string in
  plugins_keep in_region demo /\ block_free demo (fun d n => moves_origin d n \/ reserves d n) c20_body /\
  exists s1 s2, exec demo 5 [Stmt KDirective [#".org"; #"$10"; #"$1f"] 1] s = (s1, Ok tt) /\
    exec demo 5 c20_body s1 = (s2, Ok tt) /\ pc s2 = 19 /\
    number demo s2 #"$100" 64 256 /\
    assembled (demo_state ["nop"; ".org $10 $14"; "nop"; ".db 1,2"; ".org $100"; "nop"]%string) =
      [234; 234; 1; 2; 0; 0; 234] /\
    assembled (demo_state ["nop"; ".org $10 $14"; "nop"; ".db 1,2"; ".org $13 $20"; "nop"; ".org $30"]%string) =
      [234; 234; 1; 2; 234] ++ repeat 0 13 /\
    assembled (demo_state [".org $10 $14"; "nop"]%string) = [234; 0; 0; 0; 0] /\
    snd (demo_run [".org $10 $14"; "nop"; ".org $10"]%string) = Err (AExc AddressOverlap).
Proof.
  cbv zeta. split; [|split; [exact c20_free|]].
  - apply demo_plugins; intros; unfold in_region, in_step, pc; cbn; repeat split; lia.
  - eexists. eexists. split; [vm_compute; reflexivity|]. split; [vm_compute; reflexivity|].
    repeat (split; [vm_compute; reflexivity|]). vm_compute; reflexivity.
Qed.

(** The end-of-assembly padding misses the last byte when exactly one is free, and an
    overflow of the region is not reported. *)
Theorem C20_last_byte_refuted : exists text s', assemble demo 5 text (init_st []) = (s', Ok tt) /\
  text = lines [".org 16 17"; "nop"]%string /\ assembled s' = [234].
Proof.
  exists (lines [".org 16 17"; "nop"]%string), (demo_state [".org 16 17"; "nop"]%string).
  split; [vm_compute; reflexivity|]. split; [reflexivity|]. vm_compute; reflexivity.
Qed.
Theorem C20_overflow_refuted : exists text s', assemble demo 5 text (init_st []) = (s', Ok tt) /\
  text = lines [".org 16 17"; "nop"; "nop"; "nop"; ".org 32"]%string /\ zlen (assembled s') = 3.
Proof.
  exists (lines [".org 16 17"; "nop"; "nop"; "nop"; ".org 32"]%string),
    (demo_state [".org 16 17"; "nop"; "nop"; "nop"; ".org 32"]%string).
  split; [vm_compute; reflexivity|]. split; [reflexivity|]. vm_compute; reflexivity.
Qed.

(** ** C21 *)

Lemma repeat_kept : forall c fuel ss s, plugins_keep same_repeat c -> block_free c bracket ss ->
  same_repeat s (fst (exec c fuel ss s)).
Proof.
  intros c fuel ss s P F.
  apply (events_keep c (fun d tokens => registered c d tokens /\ ~ bracket d (length tokens - 1)%nat) same_repeat).
  - intros a. split; [auto|apply extends_refl].
  - intros a b d [A B] [A' B']. split; [congruence|eapply extends_trans; eauto].
  - destruct P as [P1 P2]. intros a b E. destruct E;
      try (split; [reflexivity|cbn; first [apply extends_refl|eexists; reflexivity]]).
    + eapply P1; eauto.
    + destruct H as [[k H] _]. eapply P2; eauto.
    + exfalso. destruct H1 as [_ N]. apply N. left. reflexivity.
    + exfalso. destruct H0 as [_ N]. apply N. right. reflexivity.
    + rewrite close_section_eq. split; [reflexivity|apply extends_refl].
    + cbv zeta. rewrite close_section_eq. split; [reflexivity|apply extends_refl].
  - apply (exec_events c bracket); auto.
Qed.

Lemma times_append : forall n blob s, times n (append_assembled_bytes blob) s =
  (set_counter (set_assembled s (assembled s ++ copies n blob)) (org_counter s + Z.of_nat n * zlen blob), Ok tt).
Proof.
  induction n; intros blob s.
  - cbn [times copies]. rewrite app_nil_r, Z.mul_0_l, Z.add_0_r. destruct s; reflexivity.
  - cbn [times copies]. unfold bind, append_assembled_bytes at 1, modify. rewrite IHn.
    f_equal. unfold set_counter, set_org, set_assembled. cbn [assembled org_counter labels current_org
      current_org_end labels_addresses macros macro_recording repeat_ log sections current_section exports
      defines cartridge_set x86_bits elf_header relocations].
    rewrite <- app_assoc. f_equal. lia.
Qed.

(** .repeat n / block / .endrepeat: the block is executed once; its bytes B end up n
    times in the output, and the program counter moves by |B| for every further copy;
    nothing else is changed by the repetition. *)
Theorem C21_copies : forall c fuel t0 ops l1 body t1 ops1 l2 s t n s1 s2,
  names c t0 D_repeat -> names c t1 D_endrepeat -> repeat_ s = None ->
  plugins_keep same_repeat c -> block_free c bracket body ->
  reads s ops [t] -> number c s t 64 n -> 1 <= n ->
  exec c fuel [Stmt KDirective (t0 :: ops) l1] s = (s1, Ok tt) ->
  exec c fuel body s1 = (s2, Ok tt) ->
  exists s' B, exec c fuel (Stmt KDirective (t0 :: ops) l1 :: body ++ [Stmt KDirective (t1 :: ops1) l2]) s = (s', Ok tt) /\
    assembled s1 = assembled s /\ pc s1 = pc s /\
    assembled s2 = assembled s ++ B /\
    assembled s' = assembled s ++ copies (Z.to_nat n) B /\
    pc s' = pc s2 + (n - 1) * zlen B /\
    s' = set_counter (set_assembled (set_repeat s2 None) (assembled s')) (org_counter s').
Proof.
  intros c fuel t0 ops l1 body t1 ops1 l2 s t n s1 s2 N0 N1 RN P F R NT NP E1 E2.
  assert (Q : s1 = set_repeat s (Some (n, zlen (assembled s)))).
  { rewrite exec_one, (directive_run _ _ _ _ _ _ _ _ _ N0 R) in E1. cbn [run_directive] in E1.
    unfold directive_repeat in E1. unfold bind at 1, get in E1. rewrite RN in E1.
    cbn [len_in existsb length Nat.eqb orb negb] in E1.
    cbn [tok_at nth_error] in E1. unfold bind at 1, ret at 1 in E1. unfold bind at 1 in E1.
    rewrite (int_arg_number _ _ _ _ _ NT) in E1.
    replace (n <=? 0) with false in E1 by (symmetry; apply Z.leb_gt; lia).
    injection E1 as <-. reflexivity. }
  pose proof (repeat_kept c fuel body s1 P F) as K. rewrite E2 in K. cbn [fst] in K.
  destruct K as [K1 [B KB]]. rewrite Q in K1, KB. cbn [repeat_ assembled set_repeat] in K1, KB.
  pose proof (reads_self s2 ops1) as R1.
  assert (E3 : exec c fuel [Stmt KDirective (t1 :: ops1) l2] s2 =
    (set_counter (set_assembled (set_repeat s2 None) (assembled s2 ++ copies (Z.to_nat (n - 1)) B))
       (org_counter s2 + Z.of_nat (Z.to_nat (n - 1)) * zlen B), Ok tt)).
  { rewrite exec_one, (directive_run _ _ _ _ _ _ _ _ _ N1 R1). cbn [run_directive].
    unfold directive_end_repeat. unfold bind at 1, get. rewrite K1. unfold bind, modify. cbv zeta.
    rewrite KB. unfold zlen at 1. rewrite Nat2Z.id, skipn_app, Nat.sub_diag, skipn_all. cbn [skipn app].
    rewrite times_append. cbn [assembled org_counter set_repeat]. rewrite KB. reflexivity. }
  eexists. exists B. split.
  { change (Stmt KDirective (t0 :: ops) l1 :: body ++ [Stmt KDirective (t1 :: ops1) l2])
      with ([Stmt KDirective (t0 :: ops) l1] ++ body ++ [Stmt KDirective (t1 :: ops1) l2]).
    rewrite (exec_app _ _ _ _ _ _ E1), (exec_app _ _ _ _ _ _ E2). exact E3. }
  split; [rewrite Q; reflexivity|]. split; [rewrite Q; reflexivity|]. split; [exact KB|].
  split; [|split].
  - cbn [assembled set_counter set_org set_assembled]. rewrite KB, <- app_assoc. f_equal.
    replace (Z.to_nat n) with (S (Z.to_nat (n - 1))) by lia. reflexivity.
  - unfold pc. cbn [current_org org_counter set_counter set_org set_assembled set_repeat]. rewrite Z2Nat.id by lia. ring.
  - reflexivity.
Qed.
Print Assumptions C21_copies.

(** When the block moves no origin and reserves nothing, the program counter moves by
    the whole amount. *)
Theorem C21_pc : forall c fuel t0 ops l1 body t1 ops1 l2 s t n s1 s2,
  names c t0 D_repeat -> names c t1 D_endrepeat -> repeat_ s = None ->
  plugins_keep same_repeat c -> plugins_keep in_region c ->
  block_free c bracket body -> block_free c (fun d n => moves_origin d n \/ reserves d n) body ->
  reads s ops [t] -> number c s t 64 n -> 1 <= n ->
  exec c fuel [Stmt KDirective (t0 :: ops) l1] s = (s1, Ok tt) ->
  exec c fuel body s1 = (s2, Ok tt) ->
  exists s', exec c fuel (Stmt KDirective (t0 :: ops) l1 :: body ++ [Stmt KDirective (t1 :: ops1) l2]) s = (s', Ok tt) /\
    pc s' - pc s = n * (pc s2 - pc s1) /\
    pc s' - pc s = zlen (assembled s') - zlen (assembled s).
Proof.
  intros c fuel t0 ops l1 body t1 ops1 l2 s t n s1 s2 N0 N1 RN P P' F F' R NT NP E1 E2.
  destruct (C21_copies c fuel t0 ops l1 body t1 ops1 l2 s t n s1 s2) as (s' & B & E & A1 & PC1 & A2 & A & PC & _); auto.
  exists s'. split; auto.
  pose proof (region_kept c fuel body s1 P' F') as K. rewrite E2 in K. cbn [fst] in K.
  destruct K as [K _]. unfold in_step in K. rewrite A2, A1, zlen_app in K.
  assert (C : forall k, zlen (copies k B) = Z.of_nat k * zlen B).
  { induction k; cbn [copies]; [reflexivity|]. rewrite zlen_app, IHk. lia. }
  rewrite A, zlen_app, C, Z2Nat.id by lia. lia.
Qed.
Print Assumptions C21_pc.

(** A nested .repeat, and an .endrepeat without .repeat, are rejected without effect. *)
Theorem C21_nested : forall c fuel t0 ops l s x, names c t0 D_repeat -> repeat_ s = Some x ->
  exec c fuel [Stmt KDirective (t0 :: ops) l] s = (s, Err (AExc UnsupportedNestedRepeat)).
Proof.
  intros c fuel t0 ops l s x N RS. pose proof (reads_self s ops) as R.
  rewrite exec_one, (directive_run _ _ _ _ _ _ _ _ _ N R). cbn [run_directive].
  unfold directive_repeat. unfold bind at 1, get. rewrite RS. reflexivity.
Qed.
Theorem C21_unopened : forall c fuel t0 ops l s, names c t0 D_endrepeat -> repeat_ s = None ->
  exec c fuel [Stmt KDirective (t0 :: ops) l] s = (s, Err (AExc NotInRepeatMode)).
Proof.
  intros c fuel t0 ops l s N RS. pose proof (reads_self s ops) as R.
  rewrite exec_one, (directive_run _ _ _ _ _ _ _ _ _ N R). cbn [run_directive].
  unfold directive_end_repeat. unfold bind at 1, get. rewrite RS. reflexivity.
Qed.
Print Assumptions C21_nested.
Print Assumptions C21_unopened.

Lemma c21_free : block_free demo bracket c20_body.
Proof.
  split.
  - intros l t0 ops d I. cbn [c20_body In] in I.
    repeat (destruct I as [I|I]; [try discriminate I; injection I as <- <- _; intros E; vm_compute in E;
      injection E as <-; intros [H|H]; discriminate|]). contradiction.
  - intros n t H. cbn [demo mk_cfg c_env file_text demo_env] in H.
    destruct (str_eqb n #"inc.s"); [|discriminate]. injection H as <-.
    intros ss l t0 ops d T. vm_compute in T. injection T as <-.
    intros I. cbn [In] in I. repeat (destruct I as [I|I]; [discriminate I|]). contradiction.
Qed.
Example C21_example :
  let s := demo_state ["nop"]%string in
  plugins_keep same_repeat demo /\ block_free demo bracket c20_body /\
  names demo #".REPEAT" D_repeat /\ names demo #".endrepeat" D_endrepeat /\ number demo s #"3" 64 3 /\
  exists s1 s2, exec demo 5 [Stmt KDirective [#".repeat"; #"3"] 1] s = (s1, Ok tt) /\
    exec demo 5 c20_body s1 = (s2, Ok tt) /\
    assembled (demo_state ["nop"; ".repeat 3"; "nop"; ".db 1,2"; ".endrepeat"]%string) =
      [234; 234; 1; 2; 234; 1; 2; 234; 1; 2].
Proof.
  cbv zeta. split; [|split; [exact c21_free|]].
  - apply demo_plugins; intros; split; try reflexivity; apply extends_refl.
  - repeat (split; [vm_compute; reflexivity|]).
    eexists. eexists. split; [vm_compute; reflexivity|]. split; [vm_compute; reflexivity|]. vm_compute; reflexivity.
Qed.

(** References inside a repeated block are patched in the first copy only. *)
Theorem C21_references_refuted : exists text s', text = lines ["a:"; "nop"; "b:"; ".repeat 2"; "ldi b"; ".endrepeat"]%string /\
  (assemble demo 5 text ;; link demo dummy_linker) (init_st []) = (s', Ok tt) /\
  assembled s' = [234; 1; 1; 0; 1; 0; 0].
Proof.
  eexists. eexists. split; [reflexivity|]. split; vm_compute; reflexivity.
Qed.
Print Assumptions C19_goto_refuted.
Print Assumptions C19_align_zero_refuted.
Print Assumptions C20_last_byte_refuted.
Print Assumptions C20_overflow_refuted.
Print Assumptions C21_references_refuted.
