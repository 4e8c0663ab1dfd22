(** The 68000 handlers are well-behaved. *)
From Coq Require Import Lia.
From Verif Require Import Py PyFacts Utils Tokenizer State Assembler Instr Mc68000.
From Verif Require Import SpecUtils SpecExec SpecLink SpecCpu UtilsFacts CpuFacts WordFacts FitFacts CartFacts SpecM68 M68Lex M68Facts M68Ops.
Local Open Scope Z_scope.

Lemma msb_byte : forall n v, Forall is_byte (msb n v).
Proof.
  induction n as [|n IH]; intros v; cbn [msb]; [constructor|]. apply Forall_app. split; [apply IH|].
  constructor; [|constructor]. unfold is_byte. pose proof (Z.mod_pos_bound v 256 ltac:(lia)). lia.
Qed.
Lemma bits16 : forall base fs b, pack_bits_be16u base fs = Ok b -> exists v, b = msb 2 v.
Proof.
  intros base fs b H. unfold pack_bits_be16u in H. destruct (pack_bits base fs) as [v|]; [|discriminate].
  cbn [rbind] in H. rewrite pack16 in H. eexists. symmetry. exact (f_equal (fun r => match r with Ok x => x | Err _ => b end) H).
Qed.

(** Bytes at a given place of the instruction with at most one reference, to all of them. *)
Definition part (off : Z) (b : bytes) (ds : list labeldata) : Prop :=
  Forall is_byte b /\ (ds = [] \/ exists d, ds = [d] /\ ld_offset d = off /\ ld_size d = zlen b).
Definition part_of (off : Z) (r : Z * Z * bytes) (ds : list labeldata) : Prop := part off (snd r) ds.

Lemma slot_pure : forall A d sg (pk : Z -> res bytes) (k : bytes -> A) (P : A -> list labeldata -> Prop), sound_ref d ->
  (forall v b, pk v = Ok b -> Forall is_byte b /\ zlen b = ld_size d) ->
  (forall b ds, part (ld_offset d) b ds -> P (k b) ds) ->
  pure P (bind (parse_integer_or_label mc_p d sg) (fun v => bind (lift (pk v)) (fun b => ret (k b)))).
Proof.
  intros A d sg pk k P S K H. eapply pure_bind; [apply pure_poil; exact S|]. intros v ds O.
  eapply pure_bind; [apply pure_lift|]. intros b es [E ->]. apply pure_ret. rewrite !app_nil_r. apply H.
  destruct (K v b E) as [K1 K2]. split; [exact K1|]. destruct O as [->|[_ ->]]; [left; reflexivity|right]. exists d. auto.
Qed.
Lemma half : forall v b, pack_be16u [Some v] = Ok b -> Forall is_byte b /\ zlen b = 2.
Proof. intros v b H. rewrite pack16 in H. replace b with (msb 2 v) by congruence. split; [apply msb_byte|apply msb_zlen]. Qed.
Lemma full : forall v b, pack_be32u [Some v] = Ok b -> Forall is_byte b /\ zlen b = 4.
Proof. intros v b H. rewrite pack32 in H. replace b with (msb 4 v) by congruence. split; [apply msb_byte|apply msb_zlen]. Qed.
Lemma half_bits : forall base fs b, pack_bits_be16u base fs = Ok b -> Forall is_byte b /\ zlen b = 2.
Proof. intros base fs b H. apply bits16 in H. destruct H as (v & ->). split; [apply msb_byte|apply msb_zlen]. Qed.

Lemma packer_pure : forall t sz off, size_ok sz -> pure (part (2 + off)) (mc_packer t sz off).
Proof.
  intros t sz off SZ. unfold mc_packer. eapply pure_bind; [apply pure_poil|].
  - destruct SZ as [-> | [-> | ->]]; repeat split; cbn; try lia; discriminate.
  - intros v ds O. destruct SZ as [-> | [-> | ->]]; cbn [Z.eqb Pos.eqb orb];
      (eapply pure_weaken; [apply pure_lift|]; intros b es [E ->]; rewrite app_nil_r;
       (apply half in E || apply full in E); destruct E as [E1 E2];
       split; [exact E1|]; destruct O as [->|[_ ->]]; [left; reflexivity|right]; eexists; split; [reflexivity|]; split; [reflexivity|]; rewrite E2; reflexivity).
Qed.

Ltac tok := eapply pure_bind; [apply pure_tok|]; let t := fresh "t" in let ds := fresh "ds" in intros t ds ->; cbn [app].
Ltac lifted := eapply pure_bind; [apply pure_lift|]; let t := fresh "x" in let ds := fresh "ds" in let E := fresh "E" in intros t ds [E ->]; cbn [app].
Ltac sound_bits := split; [cbn; lia|]; split; [cbn; lia|]; split; [cbn; lia|]; split; [reflexivity|];
  let b := fresh "b" in let E := fresh "E" in intros b E; first [discriminate E|injection E as <-; cbn; lia].

Lemma abs_pure : forall t off, pure (part_of (2 + off)) (mc_abs_w t off) /\ pure (part_of (2 + off)) (mc_abs_l t off).
Proof.
  intros t off. split.
  - unfold mc_abs_w. apply (slot_pure _ _ false (fun v => pack_be16u [Some v]) (fun b => (7, 0, b))); [sound_bits|apply half|auto].
  - unfold mc_abs_l. apply (slot_pure _ _ false (fun v => pack_be32u [Some v]) (fun b => (7, 1, b))); [sound_bits|apply full|auto].
Qed.
(** The parts of the extension word are read after the value. *)
Lemma late_pure : forall A B d sg (m : M A) (pk : A -> Z -> res bytes) (k : A -> bytes -> B) (P : B -> list labeldata -> Prop), sound_ref d ->
  pure (fun _ ds => ds = []) m ->
  (forall a v b, pk a v = Ok b -> Forall is_byte b /\ zlen b = ld_size d) ->
  (forall a b ds, part (ld_offset d) b ds -> P (k a b) ds) ->
  pure P (bind (parse_integer_or_label mc_p d sg) (fun v => bind m (fun a => bind (lift (pk a v)) (fun b => ret (k a b))))).
Proof.
  intros A B d sg m pk k P S Q K H. eapply pure_bind; [apply pure_poil; exact S|]. intros v ds O.
  eapply pure_bind; [apply Q|]. intros a es ->.
  eapply pure_bind; [apply pure_lift|]. intros b es [E ->]. apply pure_ret. rewrite !app_nil_r. apply H.
  destruct (K a v b E) as [K1 K2]. split; [exact K1|]. destruct O as [->|[_ ->]]; [left; reflexivity|right]. exists d. auto.
Qed.

Lemma nothing : forall off m r, part_of off (m, r, []) [].
Proof. intros. split; [constructor|left; reflexivity]. Qed.
Lemma keep_part : forall off (v : Z) ds d b, ds = [] \/ (v = 0 /\ ds = [d]) -> ld_offset d = off -> ld_size d = 2 ->
  Forall is_byte b /\ zlen b = 2 -> part off b ds.
Proof.
  intros off v ds d b O D1 D2 [B1 B2]. split; [exact B1|]. destruct O as [->|[_ ->]]; [left; reflexivity|right]. exists d.
  split; [reflexivity|]. split; [exact D1|]. congruence.
Qed.
Lemma body_pure : forall sh tokens start off sz, size_ok sz \/ sh <> ShImm -> pure (part_of (2 + off)) (mc_body sh tokens start off sz).
Proof.
  intros sh tokens start off sz SZ. destruct sh; cbn [mc_body].
  - tok. lifted. apply pure_ret. apply nothing.
  - tok. eapply pure_bind; [apply pure_poil; sound_bits|]. intros v ds O. tok. lifted. lifted. apply pure_ret.
    rewrite !app_nil_r. apply half in E0. eapply keep_part; [exact O|reflexivity|reflexivity|assumption].
  - tok. eapply pure_bind; [apply pure_poil; sound_bits|]. intros v ds O. tok. lifted. tok. lifted. destruct x as [[k n] z]. unfold mc_ext. lifted. apply pure_ret.
    rewrite !app_nil_r. apply half_bits in E1. eapply keep_part; [exact O|reflexivity|reflexivity|assumption].
  - tok. apply (pure_pc _ _ (fun z => bind (parse_integer_or_label mc_p (LabelData t 2 16 (z + 2 + off) (2 + off) 1 None None None) false)
      (fun v => bind (lift (pack_be16u [Some v])) (fun b => ret (7, 2, b))))). intros z.
    apply (slot_pure _ _ false (fun v => pack_be16u [Some v]) (fun b => (7, 2, b))); [sound_bits|apply half|auto].
  - tok. apply (pure_pc _ _ (fun z => bind (parse_integer_or_label mc_p (LabelData t 2 8 (z + 2 + off) (2 + off) 1 (Some (7, 0)) None None) false)
      (fun v => bind (tok_at tokens (start + 3)) (fun x => bind (lift (mc_indexed_reg x)) (fun i => bind (mc_ext i v) (fun b => ret (7, 3, b))))))). intros z.
    eapply pure_bind; [apply pure_poil; sound_bits|]. intros v ds O. tok. lifted. destruct x as [[k n] y]. unfold mc_ext. lifted. apply pure_ret.
    rewrite !app_nil_r. apply half_bits in E0. eapply keep_part; [exact O|reflexivity|reflexivity|assumption].
  - tok. apply abs_pure.
  - tok. apply abs_pure.
  - tok. destruct SZ as [SZ|[]]; [|reflexivity]. eapply pure_bind; [apply packer_pure; exact SZ|]. intros b ds O. apply pure_ret. rewrite app_nil_r. exact O.
  - tok. apply abs_pure.
  - tok. apply abs_pure.
  - tok. apply abs_pure.
Qed.
Lemma mode_pure : forall tokens start off sz c, size_ok sz \/ c = Ctl ->
  pure (fun r ds => part (2 + off) (snd r) ds) (mc_mode tokens start off sz (black c)).
Proof.
  intros tokens start off sz c SZ. rewrite mode_eq.
  destruct (find (tries (skipn start tokens) (black c)) mc_rows) as [[[name ps] sh]|] eqn:F; [|apply pure_araise].
  eapply pure_bind; [apply body_pure|].
  - destruct SZ as [SZ| ->]; [left; exact SZ|right]. intros ->. apply find_some in F. destruct F as [I T].
    cbn [tries] in T. apply andb_prop in T. destruct T as [_ T].
    assert (X : forallb (fun '(n, _, sh) => match sh with ShImm => str_in n not_control | _ => true end) mc_rows = true) by (vm_compute; reflexivity).
    rewrite forallb_forall in X. apply X in I. cbn [black] in T. rewrite I in T. discriminate T.
  - intros [[m r] b] ds O. apply pure_ret. rewrite app_nil_r. exact O.
Qed.

(** ** Instructions *)

Lemma part_ok : forall w b ds, Forall is_byte w /\ zlen w = 2 -> part 2 b ds -> Forall is_byte (w ++ b) /\ placed (zlen (w ++ b)) ds.
Proof.
  intros w b ds [W1 W2] [B O]. split; [apply Forall_app; auto|]. rewrite zlen_app, W2.
  destruct O as [->|(d & -> & D1 & D2)]; [apply placed_nil|apply placed_one; lia].
Qed.
Lemma parts_ok : forall w b1 b2 ds es, Forall is_byte w /\ zlen w = 2 -> part 2 b1 ds -> part (2 + zlen b1) b2 es ->
  Forall is_byte (w ++ b1 ++ b2) /\ placed (zlen (w ++ b1 ++ b2)) (ds ++ es).
Proof.
  intros w b1 b2 ds es [W1 W2] [B1 O1] [B2 O2]. split; [rewrite !Forall_app; auto|]. rewrite !zlen_app, W2.
  assert (0 <= zlen b1) by apply zlen_nonneg. assert (0 <= zlen b2) by apply zlen_nonneg.
  destruct O1 as [->|(d & -> & D1 & D2)], O2 as [->|(e & -> & F1 & F2)]; cbn [app];
    [apply placed_nil|apply placed_one; lia|apply placed_one; lia|].
  split; repeat constructor; lia.
Qed.
Lemma none_out : forall ds, ok_out None ds.
Proof. intros ds x E. discriminate. Qed.
Lemma build_pure : forall base fs, pure (fun b ds => ds = [] /\ Forall is_byte b /\ zlen b = 2) (mc_build base fs).
Proof. intros base fs. eapply pure_weaken; [apply pure_lift|]. intros b ds [E ->]. split; [reflexivity|]. eapply half_bits; eauto. Qed.
Ltac built := eapply pure_bind; [apply build_pure|]; let w := fresh "w" in let ds := fresh "ds" in let W := fresh "W" in intros w ds [-> W]; cbn [app].

Lemma to_address_pure : forall tokens next k x y b ds, part 2 b ds -> pure (fun o es => ok_out o (ds ++ es)) (mc_to_address tokens next k x y b).
Proof.
  intros tokens next k x y b ds P. unfold mc_to_address. tok. lifted. built. apply pure_ret. intros o E'. injection E' as <-.
  rewrite app_nil_r. apply part_ok; assumption.
Qed.
Lemma dark_size : forall t, size_ok (fst (mc_s_dark t)).
Proof.
  intros t. unfold mc_s_dark, size_ok. destruct (ends_with #".b" (lower t)), (ends_with #".l" (lower t)), (ends_with #".w" (lower t)); cbn; lia.
Qed.
Lemma light_size : forall t, size_ok (fst (mc_s_light t)).
Proof.
  intros t. unfold mc_s_light, size_ok. destruct (ends_with #".b" (lower t)), (ends_with #".l" (lower t)), (ends_with #".w" (lower t)); cbn; lia.
Qed.
Lemma move_pure : forall tokens, pure ok_out (mc_move tokens).
Proof.
  intros tokens. unfold mc_move. tok. pose proof (dark_size t) as SZ. destruct (mc_s_dark t) as [sz k]. cbn [fst] in SZ.
  eapply pure_bind; [apply (mode_pure _ _ _ _ Any); left; exact SZ|]. intros [[[next sm] sr] sd] ds P. cbn [snd] in P.
  destruct (((sz =? 2) || (sz =? 4)) && imatch tokens next [PTuple a_regs]); [apply to_address_pure; exact P|].
  eapply pure_bind; [apply (mode_pure _ _ _ _ Alt); left; exact SZ|]. intros [[[nx dm] dr] dd] es P2. cbn [snd] in P2.
  built. apply pure_ret. intros o E. injection E as <-. rewrite app_nil_r. apply parts_ok; assumption.
Qed.
Lemma movea_pure : forall tokens, pure ok_out (mc_movea tokens).
Proof.
  intros tokens. unfold mc_movea. tok. pose proof (dark_size t) as SZ. destruct (mc_s_dark t) as [sz k]. cbn [fst] in SZ.
  eapply pure_bind; [apply (mode_pure _ _ _ _ Any); left; exact SZ|]. intros [[[next sm] sr] sd] ds P. cbn [snd] in P.
  destruct (imatch tokens next [PTuple a_regs]); [apply to_address_pure; exact P|]. apply pure_ret. apply none_out.
Qed.
Lemma immediate_pure : forall base st tokens, pure ok_out (mc_immediate base st tokens).
Proof.
  intros base st tokens. unfold mc_immediate.
  assert (ST : forall w k, size_ok k -> pure ok_out (bind (tok_at tokens 1) (fun t => bind (mc_packer (skipn 1 t) k 0) (fun b => bind (mc_build w []) (fun c => ret (Some (c ++ b))))))).
  { intros w k K. tok. eapply pure_bind; [apply packer_pure; exact K|]. intros b ds P. built. apply pure_ret.
    intros o E. injection E as <-. rewrite app_nil_r. apply part_ok; assumption. }
  destruct (st && imatch tokens 1 [PFun mc_is_immediate; PStr #"CCR"]); [apply ST; left; reflexivity|].
  destruct (st && imatch tokens 1 [PFun mc_is_immediate; PStr #"SR"]); [apply ST; right; left; reflexivity|].
  destruct (unbound_match tokens 1 [PFun mc_is_immediate]) as [index|]; [|apply pure_ret; apply none_out].
  tok. pose proof (light_size t) as SZ. destruct (mc_s_light t) as [sz k]. cbn [fst] in SZ. tok.
  eapply pure_bind with (Q := fun b ds => part 2 b ds /\ zlen b = sz + sz mod 2); [|intros b ds P].
  { unfold mc_packer. eapply pure_bind; [apply pure_poil|].
    - destruct SZ as [-> | [-> | ->]]; repeat split; cbn; try lia; discriminate.
    - intros v ds O. destruct SZ as [-> | [-> | ->]]; cbn [Z.eqb Pos.eqb orb];
        (eapply pure_weaken; [apply pure_lift|]; intros b es [E ->]; rewrite app_nil_r;
         (apply half in E || apply full in E); destruct E as [E1 E2]; split; [|rewrite E2; reflexivity];
         split; [exact E1|]; destruct O as [->|[_ ->]]; [left; reflexivity|right]; eexists; split; [reflexivity|]; split; [reflexivity|]; rewrite E2; reflexivity). }
  destruct P as [P L].
  eapply pure_bind; [apply (mode_pure _ _ _ _ Alt); left; exact SZ|]. intros [[[nx dm] dr] dd] es P2. cbn [snd] in P2.
  built. apply pure_ret. intros o E. injection E as <-. rewrite app_nil_r. apply parts_ok; [assumption|exact P|]. rewrite L. exact P2.
Qed.
Lemma jump_pure : forall base tokens, pure ok_out (mc_jump base tokens).
Proof.
  intros base tokens. unfold mc_jump.
  eapply pure_bind; [apply (mode_pure _ _ _ _ Ctl); right; reflexivity|]. intros [[[next sm] sr] sd] ds P. cbn [snd] in P.
  built. apply pure_ret. intros o E. injection E as <-. rewrite app_nil_r. apply part_ok; assumption.
Qed.
Lemma lea_pure : forall tokens, pure ok_out (mc_lea tokens).
Proof.
  intros tokens. unfold mc_lea.
  eapply pure_bind; [apply (mode_pure _ _ _ _ Ctl); right; reflexivity|]. intros [[[next sm] sr] sd] ds P. cbn [snd] in P.
  destruct (imatch tokens next [PTuple a_regs]); [|apply pure_ret; apply none_out].
  tok. lifted. built. apply pure_ret. intros o E'. injection E' as <-. rewrite app_nil_r. apply part_ok; assumption.
Qed.
Lemma bcc_pure : forall tokens, pure ok_out (mc_bcc tokens).
Proof.
  intros tokens. unfold mc_bcc. destruct (imatch tokens 1 [PFun mc_is_displacement]); [|apply pure_ret; apply none_out].
  tok. lifted. destruct (mc_s_dark t) as [sz k]. tok.
  apply (pure_pc _ _ (fun z => if sz =? 1 then
      let! v := parse_integer_or_label mc_p (LabelData t0 2 8 (z + 2) 0 2 (Some (7, 0)) None None) false in
      let! w := mc_build 0x6000 [((11, 8), x); ((7, 0), v)] in ret (Some w)
    else if sz =? 2 then
      let! v := parse_integer_or_label mc_p (LabelData t0 2 16 (z + 2) 2 2 None None None) false in
      let! w := mc_build 0x6000 [((11, 8), x)] in
      let! b := lift (pack_be16u [Some v]) in ret (Some (w ++ b))
    else ret None)). intros z. destruct (sz =? 1); [|destruct (sz =? 2)]; [| |apply pure_ret; apply none_out].
  - eapply pure_bind; [apply pure_poil; sound_bits|]. intros v ds O. built. apply pure_ret. intros o E'. injection E' as <-.
    rewrite !app_nil_r. destruct W as [W1 W2]. split; [exact W1|]. rewrite W2. destruct O as [->|[_ ->]]; [apply placed_nil|apply placed_one; cbn; lia].
  - eapply pure_bind; [apply pure_poil; sound_bits|]. intros v ds O. built. lifted. apply pure_ret. intros o E'. injection E' as <-.
    rewrite !app_nil_r. apply part_ok; [assumption|]. eapply keep_part; [exact O|reflexivity|reflexivity|eapply half; eassumption].
Qed.
Lemma dbcc_pure : forall tokens, pure ok_out (mc_dbcc tokens).
Proof.
  intros tokens. unfold mc_dbcc. destruct (imatch tokens 1 [PTuple d_regs; PFun mc_is_displacement]); [|apply pure_ret; apply none_out].
  tok. lifted. tok. lifted. tok.
  apply (pure_pc _ _ (fun z =>
      let! v := parse_integer_or_label mc_p (LabelData t1 2 16 (z + 2) 2 2 None None None) false in
      let! w := mc_build 0x50C8 [((11, 8), x); ((2, 0), x0)] in
      let! b := lift (pack_be16u [Some v]) in ret (Some (w ++ b)))). intros z.
  eapply pure_bind; [apply pure_poil; sound_bits|]. intros v ds O. built. lifted. apply pure_ret. intros o E'. injection E' as <-.
  rewrite !app_nil_r. apply part_ok; [assumption|]. eapply keep_part; [exact O|reflexivity|reflexivity|eapply half; eassumption].
Qed.
Lemma run_pure : forall k tokens, pure ok_out (mc_run k tokens).
Proof. intros [] tokens; cbn [mc_run]; auto using move_pure, movea_pure, immediate_pure, jump_pure, lea_pure, bcc_pure, dbcc_pure. Qed.

Lemma mc_ops : forall e k o, dget str_eqb (c_instructions (mc68000 e)) k = Some o ->
  (exists c, o = OFun (mc_run c)) \/ exists n, o = OStatic (mc_static n).
Proof.
  intros e k o D. unfold mc68000, mk_cfg in D. cbn [c_instructions] in D. apply registered in D. destruct D as [D|D]; [discriminate D|].
  rewrite map_map in D. apply in_map_iff in D. destruct D as ([n [c|]] & E & _); cbn [snd] in E; rewrite <- E; eauto.
Qed.
Lemma mc68000_fits : forall e, fits (mc68000 e) /\ handlers neat (mc68000 e).
Proof.
  assert (H : forall e k f, dget str_eqb (c_instructions (mc68000 e)) k = Some (OFun f) -> forall tokens, pure ok_out (f tokens)).
  { intros e k f D tokens. apply mc_ops in D. destruct D as [(c & E)|(n & E)]; [|discriminate]. injection E as ->. apply run_pure. }
  intros e. split; [split; [|split]|].
  - intros k f D. apply pure_handler. eapply H; eauto.
  - intros k b D. apply mc_ops in D. destruct D as [(c & E)|(n & E)]; [discriminate|]. injection E as ->.
    unfold mc_static. destruct (str_eqb n #"rts"); repeat constructor; cbn; lia.
  - apply bare_mk.
  - intros k f D. apply pure_handler. eapply H; eauto.
Qed.
