(** Proofs about the MIPS model. *)
From Coq Require Import Lia.
From Verif Require Import Py PyFacts Utils Tokenizer State Assembler SpecUtils UtilsFacts SpecParse ParseFacts SpecSubst
  SpecExec SpecCpu Instr CpuFacts WordFacts Mips32 SpecMips.
Local Open Scope Z_scope.

(** ** Registers *)

Definition regof (t : str) : option Z :=
  match index_of t regs_base with
  | Some i => Some (Z.of_nat i)
  | None => match index_of t regs_alias with Some i => Some (Z.of_nat i) | None => None end
  end.

Lemma mips_reg_eq : forall t s, mips_reg t s =
  match regof (lower t) with Some n => (s, Ok n) | None => (s, Err (PExc ValueError)) end.
Proof.
  intros t s. unfold mips_reg, regof. destruct (index_of (lower t) regs_base); [reflexivity|].
  destruct (index_of (lower t) regs_alias); reflexivity.
Qed.

Lemma index_of_In : forall t l i, index_of t l = Some i -> In t l.
Proof.
  induction l as [|x l IH]; intros i H; [discriminate|]. cbn [index_of] in H.
  destruct (str_eqb t x) eqn:E; [apply str_eqb_eq in E; left; auto|].
  destruct (index_of t l) as [j|]; [right; eauto|discriminate].
Qed.
Lemma In_index_of : forall t l, In t l -> index_of t l <> None.
Proof.
  induction l as [|x l IH]; intros H; [destruct H|]. cbn [index_of].
  destruct (str_eqb t x) eqn:E; [discriminate|]. destruct H as [->|H].
  - rewrite (proj2 (str_eqb_eq t t) eq_refl) in E. discriminate.
  - apply IH in H. destruct (index_of t l); [discriminate|auto].
Qed.

Definition names_agree : bool :=
  forallb (fun t => match regof t with
                    | Some n => existsb (fun '(x, m) => str_eqb t x && (n =? m)) reg_names | None => false end) mips_regs &&
  forallb (fun '(t, n) => match regof t with Some m => n =? m | None => false end) reg_names.
Lemma names_ok : names_agree = true.
Proof. vm_compute. reflexivity. Qed.

Lemma reg_iff : forall t n, reg t n <-> regof (lower t) = Some n.
Proof.
  intros t n. unfold reg. generalize (lower t) as x. intros x.
  pose proof names_ok as H. apply andb_prop in H. destruct H as [H1 H2]. rewrite forallb_forall in H1, H2. split; intros H.
  - apply H2 in H. destruct (regof x); [|discriminate]. apply Z.eqb_eq in H. congruence.
  - assert (I : In x mips_regs).
    { unfold regof in H. unfold mips_regs. apply in_or_app. destruct (index_of x regs_base) eqn:E1; [left; eapply index_of_In; eauto|].
      destruct (index_of x regs_alias) eqn:E2; [right; eapply index_of_In; eauto|discriminate]. }
    apply H1 in I. rewrite H in I. apply existsb_exists in I. destruct I as ([y m] & I & E).
    apply andb_prop in E. destruct E as [E1 E2]. apply str_eqb_eq in E1. apply Z.eqb_eq in E2. subst. exact I.
Qed.
Lemma reg_range : forall t n, reg t n -> 0 <= n < 32.
Proof.
  intros t n H. unfold reg in H. assert (X : forallb (fun '(_, n) => (0 <=? n) && (n <? 32)) reg_names = true) by (vm_compute; reflexivity).
  rewrite forallb_forall in X. apply X in H. lia.
Qed.
Lemma reg_run : forall t n s, reg t n -> mips_reg t s = (s, Ok n).
Proof. intros t n s H. apply reg_iff in H. rewrite mips_reg_eq, H. reflexivity. Qed.

Lemma lower_regs : map lower mips_regs = mips_regs.
Proof. vm_compute. reflexivity. Qed.
Lemma match_reg : forall t, imatch1 (PTuple mips_regs) t = true <-> exists n, reg t n.
Proof.
  intros t. cbn [imatch1]. rewrite existsb_exists. split.
  - intros (x & I & E). apply str_eqb_eq in E. apply upper_eq_lower in E.
    assert (L : lower x = x).
    { pose proof lower_regs as L. clear E. revert I L. generalize mips_regs as l. induction l as [|y l IH]; intros I L; [destruct I|].
      cbn [map] in L. injection L as L1 L2. destruct I as [->|I]; auto. }
    rewrite L in E. assert (R : regof (lower t) <> None).
    { rewrite E. unfold mips_regs in I. apply in_app_or in I. unfold regof.
      destruct (index_of x regs_base) eqn:E1; [discriminate|]. destruct I as [I|I].
      - apply In_index_of in I. congruence.
      - apply In_index_of in I. destruct (index_of x regs_alias); [discriminate|congruence]. }
    destruct (regof (lower t)) as [n|] eqn:Q; [|congruence]. exists n. apply reg_iff. exact Q.
  - intros (n & R). apply reg_iff in R. exists (lower t). split.
    + unfold regof in R. unfold mips_regs. apply in_or_app. destruct (index_of (lower t) regs_base) eqn:E1; [left; eapply index_of_In; eauto|].
      destruct (index_of (lower t) regs_alias) eqn:E2; [right; eapply index_of_In; eauto|discriminate].
    + apply str_eqb_eq. rewrite upper_lower. reflexivity.
Qed.
Lemma match_imm : forall t, imatch1 (PFun is_immediate) t = true <-> plain t.
Proof.
  intros t. cbn [imatch1]. unfold is_immediate, plain. destruct t as [|c r].
  - split; [discriminate|]. intros (c & r & E & _). discriminate.
  -  split.
    + intros H. exists c, r. split; auto. intros ->. discriminate.
    + intros (c' & r' & E & N). injection E as <- <-. apply negb_true_iff.
      change (Ascii.eqb "$"%char c && true = false). rewrite andb_true_r.
      apply Ascii.eqb_neq. auto.
Qed.
Lemma match_open : forall t, imatch1 (PStr #"(") t = true <-> t = #"(".
Proof.
  intros t. change #"(" with ["("%char]. rewrite imatch1_chr, str_eqb_eq. split; [|intros ->; reflexivity].
  intros H. apply (upper_nonletter1 _ "("%char H). left. reflexivity.
Qed.
Lemma match_close : forall t, imatch1 (PStr #")") t = true <-> t = #")".
Proof.
  intros t. change #")" with [")"%char]. rewrite imatch1_chr, str_eqb_eq. split; [|intros ->; reflexivity].
  intros H. apply (upper_nonletter1 _ ")"%char H). left. reflexivity.
Qed.

(** ** Words *)

Lemma word_bytes_eq : forall be w, 0 <= w < 2 ^ 32 -> word_bytes be w = int_bytes be 4 w.
Proof.
  intros be w R. unfold word_bytes, int_bytes. cbn [le_bytes]. rewrite !Z.div_div by lia.
  change (256 * 256) with 65536. change (65536 * 256) with 16777216. change (256 * (256 * 256)) with 16777216.
  reflexivity.
Qed.
Lemma build_ok : forall be fs s, descending 32 fs -> Forall fits_field fs ->
  build_opcode be fs s = (s, Ok (Some (word_bytes be (field_sum fs)))).
Proof.
  intros be fs s D F. pose proof (field_sum_bound fs 32 ltac:(lia) D) as B.
  unfold build_opcode, bind, lift. rewrite (pack_sum fs 32 0 D F) by (exists 0; reflexivity).
  rewrite Z.add_0_l, word_bytes_eq by exact B.
  destruct be; [unfold pack_be32u|unfold pack_le32u]; rewrite pack_one; cbn; auto; lia.
Qed.
Lemma build_ret : forall be fs s s1 b, build_opcode be fs s = (s1, Ok (Some b)) -> s1 = s.
Proof.
  intros be fs s s1 b H. unfold build_opcode, bind, lift in H. destruct (pack_bits 0 fs); [|discriminate].
  destruct (if be then _ else _); [|discriminate]. injection H. auto.
Qed.

(** ** Handlers *)

(** The function of the code that belongs to a format. *)
Definition call_of (f : format) : mips_call :=
  match f with
  | RdRsRt fn => ArithLog fn | RdRtRs fn => ShiftV fn | RdRtSa fn => Shift fn | RsRt _ => Swapped
  | RtRsImm op sg => ArithLogI op sg | RtHigh op => LoadI op true | RtLow op => LoadI op false
  | RsRtTarget op => Branch op | RsTarget op => BranchZ op | Target op => Jump op | Rs fn => JumpR fn
  | RsLink _ => Swapped | RtOffset op => LoadStore op | Rd fn => MoveFrom fn | NoOperand fn => NoArgs fn
  end.
Definition code (f : format) : Z :=
  match f with
  | RdRsRt n | RdRtRs n | RdRtSa n | RsRt n | RtRsImm n _ | RtHigh n | RtLow n | RsRtTarget n | RsTarget n
  | Target n | Rs n | RsLink n | RtOffset n | Rd n | NoOperand n => n
  end.

Ltac shape n ops := match n with
  | O => destruct ops as [|? ?]
  | S ?m => destruct ops as [|? ops]; [|shape m ops]
  end.


Ltac inv_match M :=
  apply imatch_cons in M;
  repeat match goal with H : Forall2 _ (_ :: _) _ |- _ => inversion H; clear H; subst | H : Forall2 _ [] _ |- _ => inversion H; clear H; subst end;
  repeat match goal with
  | H : imatch1 (PTuple mips_regs) ?t = true |- _ => apply match_reg in H; destruct H as [? H]
  | H : imatch1 (PFun is_immediate) ?t = true |- _ => apply match_imm in H
  | H : imatch1 (PStr ["("%char]) ?t = true |- _ => apply match_open in H; subst
  | H : imatch1 (PStr [")"%char]) ?t = true |- _ => apply match_close in H; subst
  end.
Ltac do_match := rewrite (proj2 (imatch_cons _ _ _)) by
  (repeat constructor; first [apply match_reg; eauto | apply match_imm; auto | apply match_open; reflexivity | apply match_close; reflexivity]).
Ltac run_regs := repeat match goal with H : reg ?t ?n |- context [mips_reg ?t ?s] => rewrite (reg_run t n s H); cbv beta iota delta [ret] end.
Ltac ranges := repeat match goal with H : reg ?t ?n |- _ =>
  lazymatch goal with _ : 0 <= n < 32 |- _ => fail | _ => pose proof (reg_range t n H) end end.
Ltac field_ranges := repeat constructor; cbv [fits_field]; cbn; try lia.
Ltac same_word := unfold r_word, i_word, j_word; cbn [field_sum fold_right];
  repeat match goal with |- context [2 ^ ?e] => let v := eval vm_compute in (2 ^ e) in progress change (2 ^ e) with v end;
  repeat match goal with |- context [?x mod ?m] => is_var x; rewrite (Z.mod_small x m) by lia end;
  rewrite ?Z.mod_0_l by lia; try lia.


Lemma shiftr_div : forall v n, 0 <= n -> Z.shiftr v n = v / 2 ^ n.
Proof. intros. apply Z.shiftr_div_pow2. auto. Qed.
Lemma land_low : forall v, Z.land v 0xFFFF = v mod 65536.
Proof. intros. change 0xFFFF with (Z.ones 16). rewrite Z.land_ones by lia. reflexivity. Qed.

Definition agrees (be : bool) (f : format) : Prop := forall t0 ops s s1 b,
  mips_run be (call_of f) (t0 :: ops) s = (s1, Ok (Some b)) <->
  exists w ds, encodes be s f ops w ds /\ s1 = referring s ds /\ b = word_bytes be w.

Ltac start := intros t0 ops s s1 b; cbn [call_of mips_run]; split;
  [intros H | intros (w & ds & E & -> & ->); inversion E; subst].
Ltac fwd h := unfold h in *;
  match goal with H : (if imatch ?a ?b ?c then _ else _) _ = _ |- _ =>
    let M := fresh "M" in destruct (imatch a b c) eqn:M; [|discriminate]; inv_match M end.
Ltac unwrap := unfold iapply, bind; cbn [skipn apply_operands tl]; unfold bind.
Ltac unwrap_in H := unfold iapply, bind in H; cbn [skipn apply_operands tl] in H; unfold bind in H.
Ltac run_regs_in K := repeat match type of K with context [mips_reg ?t ?s] =>
  match goal with H : reg t ?n |- _ => rewrite (reg_run t n s H) in K; cbv beta iota delta [ret] in K end end.
Ltac finish_build := rewrite build_ok; [|cbn; lia|field_ranges].
Ltac finish_build_in K := rewrite build_ok in K; [|cbn; lia|field_ranges].

Lemma rd_rs_rt_ok : forall be fn, 0 <= fn < 64 -> agrees be (RdRsRt fn).
Proof.
  intros be fn FN. start.
  - fwd arith_log. unwrap_in H. run_regs_in H. ranges. finish_build_in H. injection H as <- <-.
    eexists _, []. split; [econstructor; eassumption|]. split; [reflexivity|]. f_equal. same_word.
  - unfold arith_log. do_match. unwrap. run_regs. ranges. finish_build. cbn [referring]. repeat f_equal. same_word.
Qed.
Lemma rd_rt_rs_ok : forall be fn, 0 <= fn < 64 -> agrees be (RdRtRs fn).
Proof.
  intros be fn FN. start.
  - fwd shift_v. unwrap_in H. run_regs_in H. ranges. finish_build_in H. injection H as <- <-.
    eexists _, []. split; [econstructor; eassumption|]. split; [reflexivity|]. f_equal. same_word.
  - unfold shift_v. do_match. unwrap. run_regs. ranges. finish_build. cbn [referring]. repeat f_equal. same_word.
Qed.
Lemma rs_ok : forall be fn, 0 <= fn < 64 -> agrees be (Rs fn).
Proof.
  intros be fn FN. start.
  - fwd jump_r. unwrap_in H. run_regs_in H. ranges. finish_build_in H. injection H as <- <-.
    eexists _, []. split; [econstructor; eassumption|]. split; [reflexivity|]. f_equal. same_word.
  - unfold jump_r. do_match. unwrap. run_regs. ranges. finish_build. cbn [referring]. repeat f_equal. same_word.
Qed.
Lemma rd_ok : forall be fn, 0 <= fn < 64 -> agrees be (Rd fn).
Proof.
  intros be fn FN. start.
  - fwd move_from. unwrap_in H. run_regs_in H. ranges. finish_build_in H. injection H as <- <-.
    eexists _, []. split; [econstructor; eassumption|]. split; [reflexivity|]. f_equal. same_word.
  - unfold move_from. do_match. unwrap. run_regs. ranges. finish_build. cbn [referring]. repeat f_equal. same_word.
Qed.
Lemma move_to_jump : forall be fn, move_to be fn = jump_r be fn.
Proof. reflexivity. Qed.
Lemma none_ok : forall be fn, 0 <= fn < 64 -> agrees be (NoOperand fn).
Proof.
  intros be fn FN. start.
  - unfold no_args in H. destruct ops; [|discriminate]. cbn [length Nat.eqb] in H. finish_build_in H. injection H as <- <-.
    eexists _, []. split; [econstructor; eassumption|]. split; [reflexivity|]. f_equal. same_word.
  - unfold no_args. cbn [length Nat.eqb]. finish_build. cbn [referring]. repeat f_equal. same_word.
Qed.

(** Operands that are numbers or references. *)
Lemma value_run : forall be s t size bits rel hi lo f sg, size = 4 ->
  parse_integer_or_label (mips_cfg be) (LabelData t size bits rel 0 1 (Some (hi, lo)) f None) sg s =
    match parse_integer (mips_p be) (labels s) t bits (sg || negb (rel =? 0)) with
    | Ok (Some v) => (s, Ok v)
    | Ok None => (referring s [word_ref t bits rel hi lo f], Ok 0)
    | Err e => (s, Err e)
    end.
Proof. intros. subst. rewrite poil_eq. reflexivity. Qed.

Lemma value_iff : forall be s t bits sg d v ds, value be s t bits sg d v ds <->
  (parse_integer (mips_p be) (labels s) t bits sg = Ok (Some v) /\ ds = []) \/
  (parse_integer (mips_p be) (labels s) t bits sg = Ok None /\ v = 0 /\ ds = [d]).
Proof.
  intros. split.
  - intros H. destruct H; [left|right]; auto.
  - intros [[H ->]|(H & -> & ->)]; constructor; exact H.
Qed.

Ltac norm_in H := change (0 =? 0) with true in H; cbn [orb negb] in H.
Ltac norm := change (0 =? 0) with true; cbn [orb negb].
Ltac val_in H P := rewrite value_run in H by reflexivity; norm_in H;
  match type of H with context [parse_integer ?p ?l ?t ?n ?g] => destruct (parse_integer p l t n g) as [[?|]|?] eqn:P end;
  [| |discriminate]; cbv beta iota delta [ret] in H.
Ltac nrange P := let X := fresh in pose proof (num_range _ _ _ _ _ _ P ltac:(lia)) as X; cbn in X.
Ltac urange P := let X := fresh in pose proof (unum_range _ _ _ _ _ P ltac:(lia)) as X; cbn in X.
Ltac val_out := match goal with H : value _ _ _ _ _ _ _ _ |- _ =>
  let P := fresh "P" in apply value_iff in H; destruct H as [[P ->]|(P & -> & ->)] end;
  rewrite value_run by reflexivity; norm;
  match goal with P : parse_integer _ _ _ _ _ = _ |- _ => rewrite P end; cbv beta iota delta [ret].

Lemma rt_rs_imm_ok : forall be op sg, 0 <= op < 64 -> agrees be (RtRsImm op sg).
Proof.
  intros be op sg FN. start.
  - fwd arith_log_i. unwrap_in H. run_regs_in H. ranges.
    destruct sg; [unfold immediate_signed in H|unfold immediate_unsigned in H]; val_in H P.
    + nrange P. finish_build_in H. injection H as <- <-.
      eexists _, []. split; [econstructor; try eassumption; apply v_number; exact P|]. split; [reflexivity|]. f_equal. same_word.
    + finish_build_in H. injection H as <- <-.
      eexists _, [_]. split; [econstructor; try eassumption; apply v_name; exact P|]. split; [reflexivity|]. f_equal. same_word.
    + nrange P. finish_build_in H. injection H as <- <-.
      eexists _, []. split; [econstructor; try eassumption; apply v_number; exact P|]. split; [reflexivity|]. f_equal. same_word.
    + finish_build_in H. injection H as <- <-.
      eexists _, [_]. split; [econstructor; try eassumption; apply v_name; exact P|]. split; [reflexivity|]. f_equal. same_word.
  - unfold arith_log_i. do_match. unwrap. run_regs. ranges.
    destruct sg; [unfold immediate_signed|unfold immediate_unsigned]; val_out.
    + nrange P. finish_build. cbn [referring]. repeat f_equal. same_word.
    + finish_build. repeat f_equal. same_word.
    + nrange P. finish_build. cbn [referring]. repeat f_equal. same_word.
    + finish_build. repeat f_equal. same_word.
Qed.
Ltac got_number P := eexists _, []; split; [econstructor; try eassumption; apply v_number; exact P|]; split; [reflexivity|]; f_equal; same_word.
Ltac got_name P := eexists _, [_]; split; [econstructor; try eassumption; apply v_name; exact P|]; split; [reflexivity|]; f_equal; same_word.

Lemma rd_rt_sa_ok : forall be fn, 0 <= fn < 64 -> agrees be (RdRtSa fn).
Proof.
  intros be fn FN. start.
  - fwd mips_shift. unwrap_in H. run_regs_in H. ranges. unfold aaaaa in H. val_in H P.
    + urange P. finish_build_in H. injection H as <- <-. got_number P.
    + finish_build_in H. injection H as <- <-. got_name P.
  - unfold mips_shift. do_match. unwrap. run_regs. ranges. unfold aaaaa. val_out.
    + urange P. finish_build. cbn [referring]. repeat f_equal. same_word.
    + finish_build. repeat f_equal. same_word.
Qed.
Lemma rt_high_ok : forall be op, 0 <= op < 64 -> agrees be (RtHigh op).
Proof.
  intros be op FN. start.
  - fwd load_i. unwrap_in H. run_regs_in H. ranges. unfold immediate32, bind in H. val_in H P.
    + urange P. rewrite shiftr_div in H by lia. change (2 ^ 16) with 65536 in H.
      match type of P with _ = Ok (Some ?z) => assert (0 <= z / 65536 < 65536) by (split; [apply Z.div_pos|apply Z.div_lt_upper_bound]; lia) end.
      finish_build_in H. injection H as <- <-. got_number P.
    + change (Z.shiftr 0 16) with 0 in H. finish_build_in H. injection H as <- <-. got_name P.
  - unfold load_i. do_match. unwrap. run_regs. ranges. unfold immediate32, bind. val_out.
    + urange P. rewrite shiftr_div by lia. change (2 ^ 16) with 65536.
      match type of P with _ = Ok (Some ?z) => assert (0 <= z / 65536 < 65536) by (split; [apply Z.div_pos|apply Z.div_lt_upper_bound]; lia) end.
      finish_build. cbn [referring]. repeat f_equal. same_word.
    + change (Z.shiftr 0 16) with 0. finish_build. repeat f_equal. same_word.
Qed.
Lemma rt_low_ok : forall be op, 0 <= op < 64 -> agrees be (RtLow op).
Proof.
  intros be op FN. start.
  - fwd load_i. unwrap_in H. run_regs_in H. ranges. unfold immediate32, bind in H. val_in H P.
    + urange P. rewrite land_low in H.
      match type of P with _ = Ok (Some ?z) => assert (0 <= z mod 65536 < 65536) by (apply Z.mod_pos_bound; lia) end.
      finish_build_in H. injection H as <- <-. 
      eexists _, []; split; [econstructor; try eassumption; apply v_number; exact P|]; split; [reflexivity|]; f_equal.
      same_word.
    + change (Z.land 0 0xFFFF) with 0 in H. finish_build_in H. injection H as <- <-. got_name P.
  - unfold load_i. do_match. unwrap. run_regs. ranges. unfold immediate32, bind. val_out.
    + urange P. rewrite land_low.
      match type of P with _ = Ok (Some ?z) => assert (0 <= z mod 65536 < 65536) by (apply Z.mod_pos_bound; lia) end.
      finish_build. cbn [referring]. repeat f_equal. same_word.
    + change (Z.land 0 0xFFFF) with 0. finish_build. repeat f_equal. same_word.
Qed.

Ltac quarter P z := 
  assert (-32768 <= z / 4 < 65536) by (split; [apply Z.div_le_lower_bound|apply Z.div_lt_upper_bound]; lia).
Lemma rs_rt_target_ok : forall be op, 0 <= op < 64 -> agrees be (RsRtTarget op).
Proof.
  intros be op FN. start.
  - fwd mips_branch. unwrap_in H. run_regs_in H. ranges. unfold rel_label, bind, get in H. val_in H P.
    + nrange P. rewrite shiftr_div in H by lia. change (2 ^ 2) with 4 in H.
      match type of P with _ = Ok (Some ?z) => quarter P z end.
      finish_build_in H. injection H as <- <-. got_number P.
    + change (Z.shiftr 0 2) with 0 in H. finish_build_in H. injection H as <- <-. got_name P.
  - unfold mips_branch. do_match. unwrap. run_regs. ranges. unfold rel_label, bind, get. val_out.
    + nrange P. rewrite shiftr_div by lia. change (2 ^ 2) with 4.
      match type of P with _ = Ok (Some ?z) => quarter P z end.
      finish_build. cbn [referring]. repeat f_equal. same_word.
    + change (Z.shiftr 0 2) with 0. finish_build. repeat f_equal. same_word.
Qed.
Lemma rs_target_ok : forall be op, 0 <= op < 64 -> agrees be (RsTarget op).
Proof.
  intros be op FN. start.
  - fwd branch_z. unwrap_in H. run_regs_in H. ranges. unfold rel_label, bind, get in H. val_in H P.
    + nrange P. rewrite shiftr_div in H by lia. change (2 ^ 2) with 4 in H.
      match type of P with _ = Ok (Some ?z) => quarter P z end.
      finish_build_in H. injection H as <- <-. got_number P.
    + change (Z.shiftr 0 2) with 0 in H. finish_build_in H. injection H as <- <-. got_name P.
  - unfold branch_z. do_match. unwrap. run_regs. ranges. unfold rel_label, bind, get. val_out.
    + nrange P. rewrite shiftr_div by lia. change (2 ^ 2) with 4.
      match type of P with _ = Ok (Some ?z) => quarter P z end.
      finish_build. cbn [referring]. repeat f_equal. same_word.
    + change (Z.shiftr 0 2) with 0. finish_build. repeat f_equal. same_word.
Qed.
Lemma target_ok : forall be op, 0 <= op < 64 -> agrees be (Target op).
Proof.
  intros be op FN. start.
  - fwd mips_jump. unwrap_in H. unfold abs_label, bind in H. val_in H P.
    + urange P. rewrite shiftr_div in H by lia. change (2 ^ 2) with 4 in H.
      match type of P with _ = Ok (Some ?z) => destruct (Z.lt_ge_cases z (2 ^ 28)) as [L|L]; cbn in L;
        [assert (0 <= z / 4 < 67108864) by (split; [apply Z.div_pos|apply Z.div_lt_upper_bound]; lia)
        |assert (67108864 <= z / 4) by (apply Z.div_le_lower_bound; lia)] end.
      * finish_build_in H. injection H as <- <-. got_number P.
      * exfalso. unfold build_opcode, bind, lift in H. rewrite pack_fails in H; [discriminate| |].
        { repeat constructor; cbn; lia. }
        intros F. inversion F as [|? ? _ F2]; subst. inversion F2 as [|? ? F3 _]; subst. destruct F3 as [_ F3]. cbn in F3. lia.
    + change (Z.shiftr 0 2) with 0 in H. finish_build_in H. injection H as <- <-.
      eexists _, [_]; split; [apply e_target with (v := 0); [assumption|apply v_name; exact P|reflexivity]|]; split; [reflexivity|]; f_equal; same_word.
  - unfold mips_jump. do_match. unwrap. unfold abs_label, bind. val_out.
    + urange P. rewrite shiftr_div by lia. change (2 ^ 2) with 4.
      match goal with L : _ < 2 ^ 28 |- _ => cbn in L end.
      match type of P with _ = Ok (Some ?z) => 
        assert (0 <= z / 4 < 67108864) by (split; [apply Z.div_pos|apply Z.div_lt_upper_bound]; lia) end.
      finish_build. cbn [referring]. repeat f_equal. same_word.
    + change (Z.shiftr 0 2) with 0. finish_build. repeat f_equal. same_word.
Qed.
Lemma rt_offset_ok : forall be op, 0 <= op < 64 -> agrees be (RtOffset op).
Proof.
  intros be op FN. start.
  - fwd load_store. unwrap_in H. run_regs_in H. unfold mips_offset, m_parse_integer, bind in H.
    match type of H with context [parse_integer ?p ?l ?t ?n ?g] => destruct (parse_integer p l t n g) as [[?|]|?] eqn:P end;
      [|discriminate|discriminate]. cbv beta iota delta [ret] in H. run_regs_in H. ranges. nrange P.
    finish_build_in H. injection H as <- <-.
    eexists _, []. split; [econstructor; try eassumption; exact P|]. split; [reflexivity|]. f_equal. same_word.
  - unfold load_store. do_match. unwrap. run_regs. unfold mips_offset, m_parse_integer, bind.
    match goal with P : num _ _ _ 16 true _ |- _ => nrange P; unfold num in P; change (mips_p be) with (mips_cfg be) in P; rewrite P end.
    cbv beta iota delta [ret]. run_regs. ranges. finish_build. cbn [referring]. repeat f_equal. same_word.
Qed.

(** ** Tables *)

Definition call_eqb (a b : mips_call) : bool :=
  match a, b with
  | ArithLog x, ArithLog y | Shift x, Shift y | ShiftV x, ShiftV y | Branch x, Branch y | BranchZ x, BranchZ y
  | Jump x, Jump y | JumpR x, JumpR y | LoadStore x, LoadStore y | MoveFrom x, MoveFrom y | MoveTo x, MoveTo y
  | NoArgs x, NoArgs y => x =? y
  | ArithLogI x s, ArithLogI y t => (x =? y) && Bool.eqb s t
  | LoadI x s, LoadI y t => (x =? y) && Bool.eqb s t
  | Swapped, Swapped => true
  | _, _ => false
  end.
Lemma call_eqb_eq : forall a b, call_eqb a b = true -> a = b.
Proof.
  intros [] []; cbn [call_eqb]; intros H; try discriminate;
    try (apply andb_prop in H; destruct H as [H H2]; apply Bool.eqb_prop in H2; subst);
    try (apply Z.eqb_eq in H; subst); reflexivity.
Qed.

(** Every name of the manual that is neither refused nor deviating is bound to the
    function of its format with the code of the manual; the refused ones to the broken
    calls; there are no other names. *)
Definition tables_agree : bool :=
  forallb (fun '(n, f) =>
    match dget str_eqb mips_calls n with
    | Some k => if str_in n refused then call_eqb k Swapped
                else if str_in n deviating then true
                else ((call_eqb k (call_of f) ||
                      match f, k with Rs x, MoveTo y => x =? y | _, _ => false end)
                      && match f with RsRt _ | RsLink _ => false | _ => true end)
                     && (0 <=? code f) && (code f <? 64)
    | None => false
    end) manual &&
  forallb (fun '(n, _) => str_in n (map fst manual)) mips_calls && nodupb (map fst manual).
Lemma tables_ok : tables_agree = true.
Proof. vm_compute. reflexivity. Qed.

Lemma mips_lookup : forall be e t, dget str_eqb (c_instructions (mips32 be e)) (upper t) =
  option_map (fun k => OFun (mips_run be k)) (dget str_eqb mips_calls (lower t)).
Proof.
  intros be e t. unfold mips32, mk_cfg. cbn [c_instructions].
  rewrite register_all_upper; [|reflexivity|vm_compute; reflexivity].
  rewrite dget_lower; [|vm_compute; reflexivity]. apply dget_map.
Qed.
Lemma mips_key : forall be e t, op_key (mips32 be e) t = upper t.
Proof. reflexivity. Qed.

Lemma manual_call : forall n f, In (n, f) manual -> ~ In n refused -> ~ In n deviating -> forall be,
  exists k, dget str_eqb mips_calls n = Some k /\ mips_run be k = mips_run be (call_of f) /\ agrees be f.
Proof.
  intros n f I NR ND be. pose proof tables_ok as H. apply andb_prop in H. destruct H as [H _].
  apply andb_prop in H. destruct H as [H _]. rewrite forallb_forall in H. apply H in I. clear H.
  destruct (dget str_eqb mips_calls n) as [k|]; [|discriminate]. exists k. split; [reflexivity|].
  destruct (str_in n refused) eqn:E1; [apply str_in_In in E1; contradiction|].
  destruct (str_in n deviating) eqn:E2; [apply str_in_In in E2; contradiction|].
  rewrite !andb_true_iff, orb_true_iff in I. destruct I as [[[I1 I2] I3] I4].
  assert (C : 0 <= code f < 64) by lia. split.
  - destruct I1 as [I1|I1]; [apply call_eqb_eq in I1; subst; reflexivity|].
    destruct f; try discriminate. destruct k; try discriminate. apply Z.eqb_eq in I1. subst. reflexivity.
  - destruct f; cbn [code] in C; [exact (rd_rs_rt_ok be _ C) | exact (rd_rt_rs_ok be _ C) | exact (rd_rt_sa_ok be _ C)
      | discriminate | exact (rt_rs_imm_ok be _ _ C) | exact (rt_high_ok be _ C) | exact (rt_low_ok be _ C)
      | exact (rs_rt_target_ok be _ C) | exact (rs_target_ok be _ C) | exact (target_ok be _ C) | exact (rs_ok be _ C)
      | discriminate | exact (rt_offset_ok be _ C) | exact (rd_ok be _ C) | exact (none_ok be _ C) ].
Qed.
