(** Values of 8086 instructions: reading them in the model is storing them. *)
From Coq Require Import Lia.
From Verif Require Import Py PyFacts Utils Tokenizer State Assembler Instr I8086.
From Verif Require Import SpecUtils SpecExec SpecCpu UtilsFacts CpuFacts WordFacts MosFacts MipsFacts LrFacts M68Facts SpecI86 I86Sem I86Facts I86Rows.
Local Open Scope Z_scope.

Lemma le_word : forall v, le_bytes 2 v = [v mod 256; v / 256 mod 256]. Proof. reflexivity. Qed.
Lemma mod_word : forall v, [(v mod 65536) mod 256; (v mod 65536) / 256 mod 256] = [v mod 256; v / 256 mod 256].
Proof.
  intros v. f_equal; [|f_equal].
  - rewrite <- Znumtheory.Zmod_div_mod; [reflexivity|lia|lia|exists 256; reflexivity].
  - change 65536 with (256 * 256). rewrite Z.rem_mul_r by lia. rewrite (Z.add_comm (v mod 256)), (Z.mul_comm 256 (v / 256 mod 256)), Z.div_add_l by lia.
    rewrite (Z.div_small (v mod 256)) by (apply Z.mod_pos_bound; lia). rewrite Z.add_0_r. apply Z.mod_mod. lia.
Qed.
Lemma pack_w : forall v, pack_le16u [Some v] = Ok [v mod 256; v / 256 mod 256].
Proof.
  intros v. unfold pack_le16u, pack_u. cbn [map struct_pack masked]. unfold struct_pack1. cbn [sf_signed sf_size].
  change 65535 with (2 ^ 16 - 1). rewrite land_ones_mod by lia.
  pose proof (Z.mod_pos_bound v (2 ^ 16) ltac:(lia)) as B. change (8 * Z.of_nat 2) with 16.
  replace ((0 <=? v mod 2 ^ 16) && (v mod 2 ^ 16 <? 2 ^ 16)) with true by (symmetry; apply andb_true_intro; split; lia).
  cbn [rbind int_bytes]. rewrite app_nil_r, le_word. change (2 ^ 16) with 65536. rewrite mod_word. reflexivity.
Qed.
Lemma neg_fix16 : forall m, 0 <= m < 65536 -> neg_fix m 16 = if 32768 <=? m then m - 65536 else m.
Proof.
  intros m B. unfold neg_fix. change (Z.shiftl 1 (16 - 1)) with (2 ^ 15). change (Z.shiftl 1 16) with 65536.
  destruct (32768 <=? m) eqn:E.
  - replace (Z.land m (2 ^ 15) =? 0) with false; [cbn [negb]; lia|].
    symmetry. apply Z.eqb_neq. intros X. assert (T : Z.testbit (Z.land m (2 ^ 15)) 15 = false) by (rewrite X; apply Z.bits_0).
    rewrite Z.land_spec, Z.pow2_bits_true, andb_true_r in T by lia.
    rewrite Z.testbit_false in T by lia. change (2 ^ 15) with 32768 in T.
    assert (m / 32768 = 1) as Q by (symmetry; apply Z.div_unique with (m - 32768); lia). rewrite Q in T. discriminate.
  - replace (Z.land m (2 ^ 15) =? 0) with true; [reflexivity|]. symmetry. apply Z.eqb_eq.
    apply Z.bits_inj'. intros n N. rewrite Z.land_spec, Z.bits_0, Z.pow2_bits_eqb by lia.
    destruct (Z.eqb_spec 15 n) as [<-|]; [|apply andb_false_r]. rewrite andb_true_r.
    rewrite Z.testbit_false by lia. change (2 ^ 15) with 32768. rewrite Z.div_small by lia. reflexivity.
Qed.
Lemma pack_sw : forall v, pack_le16s [Some v] = Ok [v mod 256; v / 256 mod 256].
Proof.
  intros v. unfold pack_le16s, pack_s. cbn [map struct_pack neg_masked].
  change 0xffff with (2 ^ 16 - 1). rewrite land_ones_mod by lia. change (2 ^ 16) with 65536.
  pose proof (Z.mod_pos_bound v 65536 ltac:(lia)) as B. rewrite neg_fix16 by exact B. rewrite <- (mod_word v). set (m := v mod 65536) in *.
  unfold struct_pack1. cbn [sf_signed sf_size]. change (2 ^ (8 * Z.of_nat 2 - 1)) with 32768.
  replace ((- (32768) <=? (if 32768 <=? m then m - 65536 else m)) && ((if 32768 <=? m then m - 65536 else m) <? 32768)) with true
    by (destruct (32768 <=? m) eqn:E; lia).
  cbn [rbind int_bytes]. rewrite app_nil_r, le_word. f_equal.
  destruct (32768 <=? m); [|reflexivity]. rewrite <- (mod_word (m - 65536)), <- (mod_word m).
  replace (m - 65536) with (m + (-1) * 65536) by ring. rewrite Z_mod_plus_full. reflexivity.
Qed.

Lemma poil_lab : forall t size bits rel sg s s' v, sg || negb (rel =? 0) = sg || negb (rel =? 0) ->
  parse_integer_or_label i86_p (lab t size bits 1 rel) sg s = (s', Ok v) <->
  (num i86_p s t bits (sg || negb (rel =? 0)) v /\ s' = s) \/
  (not_num i86_p s t bits (sg || negb (rel =? 0)) /\ v = 0 /\ s' = referring s [ref t size bits 1 rel]).
Proof.
  intros t size bits rel sg s s' v _. rewrite poil_eq. unfold num, not_num. cbn [lab ld_label ld_bits_size ld_relative].
  destruct (parse_integer i86_p (labels s) t bits (sg || negb (rel =? 0))) as [[x|]|e]; split.
  - intros H. injection H as <- <-. auto.
  - intros [[H ->]|[H _]]; [injection H as ->; reflexivity|discriminate].
  - intros H. injection H as <- <-. auto.
  - intros [[H _]|(_ & -> & ->)]; [discriminate|reflexivity].
  - discriminate.
  - intros [[H _]|[H _]]; discriminate.
Qed.
Lemma div_word : forall v, 0 <= v < 65536 -> v / 256 mod 256 = v / 256.
Proof. intros v R. apply Z.mod_small. split; [apply Z.div_pos; lia|apply Z.div_lt_upper_bound; lia]. Qed.
Lemma read_ok : forall f t s s' b, 0 <= pc s -> f <> AddrV -> (f = Disp16 -> ~ not_num i86_p s t 16 true) ->
  read f t s = (s', Ok b) <-> exists ds, stored86 i86_p s 1 f t b ds /\ s' = referring s ds.
Proof.
  intros f t s s' b PC NA ND.
  assert (U8 : forall v, num i86_p s t 8 false v -> 0 <= v < 256) by (intros v N; apply WordFacts.unum_range in N; [exact N|lia]).
  assert (U16 : forall v, num i86_p s t 16 false v -> 0 <= v < 65536) by (intros v N; apply WordFacts.unum_range in N; [exact N|lia]).
  destruct f; try congruence; cbn [read]; rewrite ?get_bind; rewrite bind_ok.
  - split.
    + intros (s1 & v & P & L). apply poil_lab in P; [|reflexivity]. apply lift_ok in L. destruct L as [L ->].
      change (false || negb (0 =? 0)) with false in P. destruct P as [[N ->]|(N & -> & ->)].
      * rewrite pack_byte1 in L by (apply U8, N). injection L as <-. exists []. split; [constructor; exact N|reflexivity].
      * injection L as <-. eexists. split; [apply s_imm8_name; exact N|reflexivity].
    + intros (ds & ST & ->). inversion ST; subst.
      * exists s, v. split; [apply poil_lab; auto|]. apply lift_ok. split; [apply pack_byte1, U8; assumption|reflexivity].
      * eexists; exists 0. split; [apply poil_lab; [reflexivity|]; right; split; [assumption|]; split; reflexivity|]. apply lift_ok. auto.
  - split.
    + intros (s1 & v & P & L). apply poil_lab in P; [|reflexivity]. apply lift_ok in L. destruct L as [L ->].
      change (false || negb (0 =? 0)) with false in P. destruct P as [[N ->]|(N & -> & ->)].
      * rewrite pack_w, div_word in L by (apply U16, N). injection L as <-. exists []. split; [constructor; exact N|reflexivity].
      * injection L as <-. eexists. split; [apply s_imm16_name; exact N|reflexivity].
    + intros (ds & ST & ->). inversion ST; subst.
      * exists s, v. split; [apply poil_lab; auto|]. apply lift_ok. split; [rewrite pack_w, div_word by (apply U16; assumption); reflexivity|reflexivity].
      * eexists; exists 0. split; [apply poil_lab; [reflexivity|]; right; split; [assumption|]; split; reflexivity|]. apply lift_ok. auto.
  - assert (X : forall v, num i86_p s t 8 false v -> pack_le16u [Some v] = Ok [v; 0]).
    { intros v N. apply U8 in N. rewrite pack_w, Z.mod_small by exact N. rewrite (Z.div_small v) by exact N. reflexivity. }
    split.
    + intros (s1 & v & P & L). apply poil_lab in P; [|reflexivity]. apply lift_ok in L. destruct L as [L ->].
      change (false || negb (0 =? 0)) with false in P. destruct P as [[N ->]|(N & -> & ->)].
      * rewrite (X v N) in L. injection L as <-. exists []. split; [constructor; exact N|reflexivity].
      * injection L as <-. eexists. split; [apply s_addr8_name; exact N|reflexivity].
    + intros (ds & ST & ->). inversion ST; subst.
      * exists s, v. split; [apply poil_lab; auto|]. apply lift_ok. split; [apply X; assumption|reflexivity].
      * eexists; exists 0. split; [apply poil_lab; [reflexivity|]; right; split; [assumption|]; split; reflexivity|]. apply lift_ok. auto.
  - split.
    + intros (s1 & v & P & L). apply poil_lab in P; [|reflexivity]. apply lift_ok in L. destruct L as [L ->].
      cbn [orb] in P. destruct P as [[N ->]|(N & -> & ->)].
      * rewrite pack_sw in L. injection L as <-. exists []. split; [constructor; exact N|reflexivity].
      * exfalso. exact (ND eq_refl N).
    + intros (ds & ST & ->). inversion ST; subst.
      exists s, v. split; [apply poil_lab; auto|]. apply lift_ok. split; [apply pack_sw|reflexivity].
  - assert (SG : false || negb (pc s + 2 =? 0) = true) by (replace (pc s + 2 =? 0) with false by lia; reflexivity).
    assert (X : forall v, num i86_p s t 8 true v -> pack_8s [Some v] = Ok [v mod 256]).
    { intros v N. apply neg_pack. apply num_range in N; [|lia]. change (2 ^ (8 - 1)) with 128 in N. lia. }
    split.
    + intros (s1 & v & P & L). apply poil_lab in P; [|reflexivity]. apply lift_ok in L. destruct L as [L ->]. rewrite SG in P.
      destruct P as [[N ->]|(N & -> & ->)].
      * rewrite (X v N) in L. injection L as <-. exists []. split; [constructor; exact N|reflexivity].
      * injection L as <-. eexists. split; [apply s_jump8_name; exact N|]. replace (pc s + 1 + 1) with (pc s + 2) by ring. reflexivity.
    + intros (ds & ST & ->). inversion ST; subst.
      * exists s, v. split; [apply poil_lab; rewrite ?SG; auto|]. apply lift_ok. split; [apply X; assumption|reflexivity].
      * eexists; exists 0. split; [apply poil_lab; [reflexivity|]; rewrite SG; right; split; [assumption|]; split; reflexivity|]. apply lift_ok.
        replace (pc s + 1 + 1) with (pc s + 2) by ring. auto.
  - assert (SG : false || negb (pc s + 3 =? 0) = true) by (replace (pc s + 3 =? 0) with false by lia; reflexivity).
    split.
    + intros (s1 & v & P & L). apply poil_lab in P; [|reflexivity]. apply lift_ok in L. destruct L as [L ->]. rewrite SG in P.
      destruct P as [[N ->]|(N & -> & ->)].
      * rewrite pack_w in L. injection L as <-. exists []. split; [constructor; exact N|reflexivity].
      * injection L as <-. eexists. split; [apply s_jump16_name; exact N|]. replace (pc s + 1 + 2) with (pc s + 3) by ring. reflexivity.
    + intros (ds & ST & ->). inversion ST; subst.
      * exists s, v. split; [apply poil_lab; rewrite ?SG; auto|]. apply lift_ok. split; [apply pack_w|reflexivity].
      * eexists; exists 0. split; [apply poil_lab; [reflexivity|]; rewrite SG; right; split; [assumption|]; split; reflexivity|]. apply lift_ok.
        replace (pc s + 1 + 2) with (pc s + 3) by ring. auto.
Qed.

(** Numbers of different widths. *)
Lemma not_num_width : forall p s t n m a b, not_num p s t n a -> not_num p s t m b.
Proof.
  intros p s t n m a b H. unfold not_num, parse_integer, parse_integer_with in *.
  destruct (get_math_formula t) as [[tok pre] post]. destruct (internal_parse_integer p tok) as [[[v|] d]|e]; cbn [rbind] in *; try discriminate; [|reflexivity].
  destruct (apply_math_formula p (labels s) math_fuel pre post v) as [w|e]; cbn [rbind] in H; [|discriminate].
  destruct (check_integer w d n a) as [w'|e]; cbn [rbind] in H; discriminate.
Qed.
Lemma referring_twice : forall s d e, ld_offset d = ld_offset e -> referring (referring s [d]) [e] = referring s [e].
Proof.
  intros s d e E. unfold referring. cbn [labels_addresses set_labels_addresses assembled]. rewrite E.
  assert (X : forall l k, dset Z.eqb (dset Z.eqb l k d) k e = dset Z.eqb l k e).
  { intros l k. induction l as [|[k' v] l IH]; cbn [dset]; [rewrite Z.eqb_refl; reflexivity|].
    destruct (Z.eqb k k') eqn:K; cbn [dset]; rewrite K; [reflexivity|]. rewrite IH. reflexivity. }
  unfold set_labels_addresses. destruct s. cbn. rewrite X. reflexivity.
Qed.
Lemma referring_num : forall p s ds t n sg v, num p (referring s ds) t n sg v <-> num p s t n sg v.
Proof. intros p s ds t n sg v. unfold num. destruct (FitFacts.view_referring ds s) as (E & _). rewrite E. tauto. Qed.
Lemma referring_not_num : forall p s ds t n sg, not_num p (referring s ds) t n sg <-> not_num p s t n sg.
Proof. intros p s ds t n sg. unfold not_num. destruct (FitFacts.view_referring ds s) as (E & _). rewrite E. tauto. Qed.
Lemma referring_pc : forall s ds, pc (referring s ds) = pc s.
Proof. intros s ds. destruct (FitFacts.view_referring ds s) as (_ & A & B & _). unfold pc. rewrite A, B. reflexivity. Qed.

(** Reading an address or port twice. *)
Lemma twice_word : forall t s s' b, 0 <= pc s ->
  bind (read Addr8 t) (fun _ => read Imm16 t) s = (s', Ok b) <-> exists ds, stored86 i86_p s 1 AddrV t b ds /\ s' = referring s ds.
Proof.
  intros t s s' b PC. rewrite bind_ok. split.
  - intros (s1 & b1 & R1 & R2). apply read_ok in R1; [|exact PC|discriminate|discriminate]. destruct R1 as (ds1 & S1 & ->).
    apply read_ok in R2; [|rewrite referring_pc; exact PC|discriminate|discriminate]. destruct R2 as (ds2 & S2 & ->).
    inversion S1; subst; inversion S2; subst; rewrite ?referring_num, ?referring_not_num in *.
    + exists []. split; [|reflexivity]. cbn [referring] in *. eapply s_addrv; eassumption.
    + match goal with A : num _ _ _ _ _ _, B : not_num _ _ _ _ _ |- _ => apply (not_num_width _ _ _ _ 8 _ false) in B; cbn [referring] in B; unfold num, not_num in *; congruence end.
    + match goal with A : num _ _ _ _ _ _, B : not_num _ _ _ _ _ |- _ => apply (not_num_width _ _ _ _ 16 _ false) in B; unfold num, not_num in *; congruence end.
    + eexists. split; [apply s_addrv_name; assumption|]. apply referring_twice. reflexivity.
  - intros (ds & ST & ->). inversion ST; subst.
    + exists s, [w; 0]. split; [apply read_ok; [exact PC|discriminate|discriminate|]; exists []; split; [constructor; assumption|reflexivity]|].
      apply read_ok; [exact PC|discriminate|discriminate|]. exists []. split; [constructor; assumption|reflexivity].
    + exists (referring s [ref t 1 8 1 0]), [0; 0]. split.
      * apply read_ok; [exact PC|discriminate|discriminate|]. eexists. split; [apply s_addr8_name; eapply not_num_width; eassumption|reflexivity].
      * apply read_ok; [rewrite referring_pc; exact PC|discriminate|discriminate|]. eexists. split; [apply s_imm16_name; rewrite referring_not_num; assumption|].
        symmetry. apply referring_twice. reflexivity.
Qed.
Lemma twice_byte : forall t s s' b, 0 <= pc s ->
  bind (read Imm8 t) (fun _ => read Imm8 t) s = (s', Ok b) <-> exists ds, stored86 i86_p s 1 Imm8 t b ds /\ s' = referring s ds.
Proof.
  intros t s s' b PC. rewrite bind_ok. split.
  - intros (s1 & b1 & R1 & R2). apply read_ok in R1; [|exact PC|discriminate|discriminate]. destruct R1 as (ds1 & S1 & ->).
    apply read_ok in R2; [|rewrite referring_pc; exact PC|discriminate|discriminate]. destruct R2 as (ds2 & S2 & ->).
    inversion S1; subst; inversion S2; subst; rewrite ?referring_num, ?referring_not_num in *.
    + exists []. split; [|reflexivity]. cbn [referring] in *. constructor. assumption.
    + cbn [referring] in *. unfold num, not_num in *. congruence.
    + unfold num, not_num in *. congruence.
    + eexists. split; [apply s_imm8_name; assumption|]. apply referring_twice. reflexivity.
  - intros (ds & ST & ->). inversion ST; subst.
    + exists s, [v]. split; (apply read_ok; [exact PC|discriminate|discriminate|]; exists []; split; [constructor; assumption|reflexivity]).
    + exists (referring s [ref t 1 8 1 0]), [0]. split.
      * apply read_ok; [exact PC|discriminate|discriminate|]. eexists. split; [apply s_imm8_name; assumption|reflexivity].
      * apply read_ok; [rewrite referring_pc; exact PC|discriminate|discriminate|]. eexists. split; [apply s_imm8_name; rewrite referring_not_num; assumption|].
        symmetry. apply referring_twice. reflexivity.
Qed.
