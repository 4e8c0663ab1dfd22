(** C18 data directives, C19 padding, C20 bounded origins, C21 repetition. *)
From Coq Require Import Lia.
From Verif Require Import Py PyFacts Utils Tokenizer State Assembler SpecUtils UtilsFacts SpecParse ParseFacts
  SpecTok SpecSubst SubstFacts Events SpecExec ExecFacts Demo PropsUtils PropsExec.
Local Open Scope Z_scope.

Lemma zdget_dset : forall V (d : list (Z * V)) k v k',
  dget Z.eqb (dset Z.eqb d k v) k' = if Z.eqb k' k then Some v else dget Z.eqb d k'.
Proof.
  induction d as [|[a x] d IH]; intros k v k'; cbn [dset dget]; auto.
  destruct (Z.eqb k a) eqn:E.
  - apply Z.eqb_eq in E. subst. cbn [dget]. destruct (Z.eqb k' a); auto.
  - cbn [dget]. destruct (Z.eqb k' a) eqn:E'; auto.
    apply Z.eqb_eq in E'. subst. rewrite Z.eqb_sym in E. rewrite E. reflexivity.
Qed.

Lemma pack_one : forall be w pk v, packs_unsigned be w pk -> 0 <= v < 2 ^ (8 * Z.of_nat w) ->
  exists b, pk [Some v] = Ok b /\ length b = w /\ read_value be b = v.
Proof.
  intros be w pk v P V. destruct (P [Some v]) as (b & E & L & _ & R). exists b. split; auto.
  cbn [length] in L. rewrite Nat.mul_1_r in L. split; auto.
  cbn [length read_fields map arg_value] in R. injection R as R. rewrite <- L in R at 1.
  rewrite firstn_all in R. rewrite R. apply Z.mod_small. exact V.
Qed.

Lemma read_one : forall be be' b, length b = 1%nat -> read_value be b = read_value be' b.
Proof. intros [] [] [|x [|y b]] L; try discriminate; reflexivity. Qed.

(** One operand of a data directive. *)
Definition data_run (c : cfg) (d : directive) (t : str) : M unit :=
  let p := c_p c in
  match d with
  | D_db => data_token p 1 encode_ascii (fun v => pack_byte [Some v]) t
  | D_dw => data_token p 2 (fun s => Ok (encode_utf16 s))
          (fun v => if big_endian p then pack_be16u [Some v] else pack_le16u [Some v]) t
  | _ => data_token p 4 (fun s => Ok (encode_utf32 s))
          (fun v => if big_endian p then pack_be32u [Some v] else pack_le32u [Some v]) t
  end.

Lemma data_dir : forall c asm d w t0 ops, data_width d w ->
  run_directive c asm d (t0 :: ops) = iter (data_run c d) ops.
Proof. intros c asm d w t0 ops []; reflexivity. Qed.

Definition item_value (x : option Z) : Z := match x with Some v => v | None => 0 end.
Definition with_ref (w : Z) (t : str) (x : option Z) (s : st) : st :=
  match x with
  | Some _ => s
  | None => set_labels_addresses s
              (dset Z.eqb (labels_addresses s) (zlen (assembled s)) (plain_ref t w (8 * w)))
  end.

Lemma data_step : forall c d w x, data_width d w -> 0 <= item_value x < 2 ^ (8 * Z.of_nat w) ->
  exists b, length b = w /\ read_value (big_endian (c_p c)) b = item_value x /\
    forall t s, unquoted t -> parse_integer (c_p c) (labels s) t (8 * Z.of_nat w) false = Ok x ->
      data_run c d t s =
        (set_counter (set_assembled (with_ref (Z.of_nat w) t x s) (assembled s ++ b))
                     (org_counter s + zlen b), Ok tt).
Proof.
  intros c d w x W V. destruct C01_unsigned_packing as (P1 & P2 & P4 & _ & B2 & B4).
  assert (G : forall enc pk, (exists b, pk (item_value x) = Ok b /\ length b = w /\
       read_value (big_endian (c_p c)) b = item_value x) ->
    exists b, length b = w /\ read_value (big_endian (c_p c)) b = item_value x /\
    forall t s, unquoted t -> parse_integer (c_p c) (labels s) t (8 * Z.of_nat w) false = Ok x ->
      data_token (c_p c) (Z.of_nat w) enc pk t s =
        (set_counter (set_assembled (with_ref (Z.of_nat w) t x s) (assembled s ++ b))
                     (org_counter s + zlen b), Ok tt)).
  { intros enc pk (b & E & L & R). exists b. split; auto. split; auto.
    intros t s (y & r & -> & N1 & N2) PI. unfold data_token.
    unfold bind at 1, lift, is_quoted. apply Ascii.eqb_neq in N1, N2. rewrite N1, N2.
    cbn [orb]. unfold bind at 1, parse_integer_or_label, m_parse_integer, bind at 1.
    cbn [ld_label plain_ref ld_bits_size ld_relative Z.eqb negb orb]. rewrite PI.
    destruct x as [v|]; unfold ret, bind; cbn [item_value] in E.
    - rewrite E. reflexivity.
    - unfold add_label_translation, modify. rewrite E. unfold with_ref, append_assembled_bytes, modify.
      cbn [ld_offset plain_ref]. rewrite Z.add_0_r. reflexivity. }
  destruct W; cbn [data_run].
  - apply (G encode_ascii). destruct (pack_one false 1 pack_byte _ P1 V) as (b & E & L & R).
    exists b. repeat split; auto. rewrite <- R. apply read_one. auto.
  - apply (G (fun s => Ok (encode_utf16 s))).
    destruct (big_endian (c_p c)).
    + apply (pack_one true 2 pack_be16u _ B2 V).
    + apply (pack_one false 2 pack_le16u _ P2 V).
  - apply (G (fun s => Ok (encode_utf32 s))).
    destruct (big_endian (c_p c)).
    + apply (pack_one true 4 pack_be32u _ B4 V).
    + apply (pack_one false 4 pack_le32u _ P4 V).
Qed.

Lemma data_fail : forall c d w t s e, data_width d w -> unquoted t ->
  parse_integer (c_p c) (labels s) t (8 * Z.of_nat w) false = Err e ->
  data_run c d t s = (s, Err e).
Proof.
  intros c d w t s e W (y & r & -> & N1 & N2) PI.
  assert (G : forall enc pk, data_token (c_p c) (Z.of_nat w) enc pk (y :: r) s = (s, Err e)).
  { intros enc pk. unfold data_token.
    unfold bind at 1, lift, is_quoted. apply Ascii.eqb_neq in N1, N2. rewrite N1, N2.
    cbn [orb]. unfold bind at 1, parse_integer_or_label, m_parse_integer, bind at 1.
    cbn [ld_label plain_ref ld_bits_size ld_relative Z.eqb negb orb]. rewrite PI. reflexivity. }
  destruct W; apply G.
Qed.

Lemma parse_item_range : forall c s t w x, (1 <= w)%nat ->
  parse_integer (c_p c) (labels s) t (8 * Z.of_nat w) false = Ok x ->
  0 <= item_value x < 2 ^ (8 * Z.of_nat w).
Proof.
  intros c s t w [v|] W H; cbn [item_value].
  - apply (parse_integer_range (c_p c) (labels s) t (8 * Z.of_nat w) false v); auto; lia.
  - split; [lia|]. apply Z.pow_pos_nonneg; lia.
Qed.

Lemma data_width_pos : forall d w, data_width d w -> (1 <= w)%nat.
Proof. intros d w []; lia. Qed.

Lemma data_list : forall c d w ops xs s, data_width d w ->
  Forall2 (fun t x => unquoted t /\
     parse_integer (c_p c) (labels s) t (8 * Z.of_nat w) false = Ok x) ops xs ->
  exists b s', iter (data_run c d) ops s = (s', Ok tt) /\
    s' = set_counter (set_assembled (set_labels_addresses s (labels_addresses s')) (assembled s ++ b))
                     (org_counter s + zlen b) /\
    zlen b = Z.of_nat w * zlen ops /\
    read_fields (big_endian (c_p c)) w (length ops) b = map item_value xs /\
    forall a, dget Z.eqb (labels_addresses s') a =
      match slot (Z.of_nat w) (zlen (assembled s)) ops xs a with
      | Some t => Some (plain_ref t (Z.of_nat w) (8 * Z.of_nat w))
      | None => dget Z.eqb (labels_addresses s) a
      end.
Proof.
  intros c d w ops xs s W F. revert s F. revert xs.
  induction ops as [|t ops IH]; intros xs s F; inversion F as [|? x ? xs' [U PI] F']; subst.
  - exists [], s. split; [reflexivity|]. split; [|split; [|split]].
    + rewrite app_nil_r, Z.add_0_r. destruct s; reflexivity.
    + unfold zlen. cbn. lia.
    + reflexivity.
    + reflexivity.
  - pose proof (parse_item_range _ _ _ _ _ (data_width_pos _ _ W) PI) as V.
    destruct (data_step c d w x W V) as (b1 & L1 & R1 & S1). specialize (S1 t s U PI).
    set (s1 := set_counter (set_assembled (with_ref (Z.of_nat w) t x s) (assembled s ++ b1))
                 (org_counter s + zlen b1)) in *.
    assert (LB : labels s1 = labels s) by (destruct x; reflexivity).
    destruct (IH xs' s1) as (b2 & s' & I & E & L2 & R2 & A2).
    { rewrite LB. exact F'. }
    assert (Z1 : zlen b1 = Z.of_nat w) by (unfold zlen; rewrite L1; reflexivity).
    exists (b1 ++ b2), s'. split; [|split; [|split; [|split]]].
    + cbn [iter]. unfold bind. rewrite S1. exact I.
    + assert (X : forall A C L, set_counter (set_assembled (set_labels_addresses s1 L) A) C =
                set_counter (set_assembled (set_labels_addresses s L) A) C)
        by (intros; unfold s1; destruct x; reflexivity).
      rewrite X in E. rewrite E at 1.
      replace (assembled s1) with (assembled s ++ b1) by (unfold s1; destruct x; reflexivity).
      replace (org_counter s1) with (org_counter s + zlen b1) by (unfold s1; destruct x; reflexivity).
      rewrite <- app_assoc, zlen_app, Z.add_assoc. reflexivity.
    + rewrite zlen_app, zlen_cons, L2, Z1. ring.
    + cbn [length]. rewrite read_fields_app by auto. cbn [map]. rewrite R1, R2. reflexivity.
    + intros a. rewrite A2.
      assert (AS : zlen (assembled s1) = zlen (assembled s) + Z.of_nat w).
      { unfold s1. cbn [assembled set_counter set_org set_assembled]. rewrite zlen_app, Z1. reflexivity. }
      rewrite AS. cbn [slot]. destruct x as [v|]; [reflexivity|].
      destruct (a =? zlen (assembled s)) eqn:Q.
      * apply Z.eqb_eq in Q. subst a.
        replace (slot (Z.of_nat w) (zlen (assembled s) + Z.of_nat w) ops xs' (zlen (assembled s))) with (@None str).
        { unfold s1. cbn [labels_addresses set_counter set_org set_assembled with_ref set_labels_addresses].
          rewrite zdget_dset, Z.eqb_refl. reflexivity. }
        symmetry. assert (WP := data_width_pos _ _ W). clear - WP.
        assert (G : forall o y base a, a < base -> slot (Z.of_nat w) base o y a = None).
        { induction o as [|t1 o IHo]; intros [ | [v | ] y ] base a L; cbn [slot]; auto.
          - apply IHo. lia.
          - destruct (a =? base) eqn:Q; [apply Z.eqb_eq in Q; lia|]. apply IHo. lia. }
        apply G. lia.
      * destruct (slot _ _ ops xs' a); [reflexivity|].
        unfold s1. cbn [labels_addresses set_counter set_org set_assembled with_ref set_labels_addresses].
        rewrite zdget_dset, Q. reflexivity.
Qed.

(** ** C18 *)

(** Operands that are numbers or names: each takes w bytes in the configured byte
    order, numbers with their value, names as a zero field with a reference of
    that size recorded; nothing else changes. *)
Theorem C18_operands : forall c fuel asm t0 ops l d w s ops' xs, names c t0 d -> data_width d w ->
  reads s ops ops' ->
  Forall2 (fun t x => unquoted t /\
     parse_integer (c_p c) (labels s) t (8 * Z.of_nat w) false = Ok x) ops' xs ->
  exists b s', statement_assemble c fuel asm (Stmt KDirective (t0 :: ops) l) s = (s', Ok tt) /\
    s' = set_counter (set_assembled (set_labels_addresses s (labels_addresses s')) (assembled s ++ b))
                     (org_counter s + zlen b) /\
    zlen b = Z.of_nat w * zlen ops' /\
    read_fields (big_endian (c_p c)) w (length ops') b = map arg_value xs /\
    forall a, dget Z.eqb (labels_addresses s') a =
      match slot (Z.of_nat w) (zlen (assembled s)) ops' xs a with
      | Some t => Some (LabelData t (Z.of_nat w) (8 * Z.of_nat w) 0 0 1 None None None)
      | None => dget Z.eqb (labels_addresses s) a
      end.
Proof.
  intros c fuel asm t0 ops l d w s ops' xs N W R F.
  rewrite (directive_run _ _ _ _ _ _ _ _ _ N R), (data_dir c asm d w) by auto.
  apply (data_list c d w ops' xs s W F).
Qed.
Print Assumptions C18_operands.

(** In particular literals: the bytes read back as the accepted values. *)
Theorem C18_literals : forall c fuel asm t0 ops l d w s ops' vs, names c t0 d -> data_width d w ->
  markers_ok (c_p c) -> reads s ops ops' ->
  Forall2 (fun t v => unquoted t /\ exists n dec, literal (c_p c) t n dec /\
     accepts (8 * Z.of_nat w) false dec n v) ops' vs ->
  exists b s', statement_assemble c fuel asm (Stmt KDirective (t0 :: ops) l) s = (s', Ok tt) /\
    emitted s b s' /\ zlen b = Z.of_nat w * zlen ops' /\ pc s' = pc s + zlen b /\
    read_fields (big_endian (c_p c)) w (length ops') b = vs.
Proof.
  intros c fuel asm t0 ops l d w s ops' vs N W MK R F.
  assert (F' : Forall2 (fun t x => unquoted t /\
     parse_integer (c_p c) (labels s) t (8 * Z.of_nat w) false = Ok x) ops' (map Some vs)).
  { clear - F MK W. induction F as [|t v ops vs (U & n & dec & L & A) F IH]; constructor; auto.
    split; auto. pose proof (data_width_pos _ _ W).
    apply (literal_roundtrip (c_p c) (labels s) t n dec); auto; try lia.
    intros ch ->. destruct U as (x & r & E & _ & N). injection E as <- _. exfalso. apply N. reflexivity. }
  destruct (C18_operands c fuel asm t0 ops l d w s ops' _ N W R F') as (b & s' & E & S & L & RF & A).
  exists b, s'. split; auto.
  assert (NS : forall a, slot (Z.of_nat w) (zlen (assembled s)) ops' (map Some vs) a = None).
  { clear. generalize (zlen (assembled s)) as base. revert vs.
    induction ops' as [|t ops IH]; intros [|v vs] base a; cbn [map slot]; auto. }
  split; [|split; [|split]]; auto.
  - unfold emitted. rewrite S. f_equal. f_equal.
    (* no reference is recorded: the table itself is unchanged *)
    assert (Q : labels_addresses s' = labels_addresses s).
    { clear - E N R F' W. rewrite (directive_run _ _ _ _ _ _ _ _ _ N R), (data_dir c asm d w) in E by auto.
      revert s s' E F' R. clear N. revert vs.
      induction ops' as [|t ops' IH]; intros vs s s' E F' R.
      - injection E as <-. reflexivity.
      - destruct vs as [|v vs]; inversion F' as [|? ? ? ? [U PI] F2]; subst.
        cbn [iter] in E. unfold bind in E.
        pose proof (parse_item_range _ _ _ _ _ (data_width_pos _ _ W) PI) as V.
        destruct (data_step c d w (Some v) W V) as (b1 & L1 & R1 & S1). rewrite (S1 t s U PI) in E.
        cbn [with_ref] in E.
        assert (X : forall s s' (R : True), iter (data_run c d) ops' s = (s', Ok tt) ->
           Forall2 (fun t x => unquoted t /\
             parse_integer (c_p c) (labels s) t (8 * Z.of_nat w) false = Ok x) ops' (map Some vs) ->
           labels_addresses s' = labels_addresses s).
        { clear - W. revert vs. induction ops' as [|t ops' IH]; intros vs s s' _ E F'.
          - injection E as <-. reflexivity.
          - destruct vs as [|v vs]; inversion F' as [|? ? ? ? [U PI] F2]; subst.
            cbn [iter] in E. unfold bind in E.
            pose proof (parse_item_range _ _ _ _ _ (data_width_pos _ _ W) PI) as V.
            destruct (data_step c d w (Some v) W V) as (b1 & L1 & R1 & S1). rewrite (S1 t s U PI) in E.
            apply (IH vs) in E; auto. }
        apply (X _ _ I) in E; auto. }
    rewrite Q. destruct s; reflexivity.
  - rewrite S. unfold pc. cbn. lia.
  - rewrite RF. clear. induction vs; cbn; auto. f_equal. auto.
Qed.
Print Assumptions C18_literals.

(** The first operand that is rejected stops the directive with its error; the
    operands before it are emitted, nothing of it is. *)
Theorem C18_rejected : forall c fuel asm t0 ops l d w s good xs bad rest e, names c t0 d -> data_width d w ->
  reads s ops (good ++ bad :: rest) ->
  Forall2 (fun t x => unquoted t /\
     parse_integer (c_p c) (labels s) t (8 * Z.of_nat w) false = Ok x) good xs ->
  unquoted bad -> parse_integer (c_p c) (labels s) bad (8 * Z.of_nat w) false = Err e ->
  exists b s', statement_assemble c fuel asm (Stmt KDirective (t0 :: ops) l) s = (s', Err e) /\
    assembled s' = assembled s ++ b /\ pc s' = pc s + zlen b /\
    zlen b = Z.of_nat w * zlen good /\
    read_fields (big_endian (c_p c)) w (length good) b = map arg_value xs.
Proof.
  intros c fuel asm t0 ops l d w s good xs bad rest e N W R F U PE.
  rewrite (directive_run _ _ _ _ _ _ _ _ _ N R), (data_dir c asm d w) by auto.
  destruct (data_list c d w good xs s W F) as (b & s' & I & E & L & RF & _).
  assert (LB : labels s' = labels s) by (rewrite E; reflexivity).
  exists b, s'. split; [|split; [|split; [|split]]]; auto.
  - assert (X : forall l1 l2 s s', iter (data_run c d) l1 s = (s', Ok tt) ->
       iter (data_run c d) (l1 ++ l2) s = iter (data_run c d) l2 s').
    { clear. induction l1; intros l2 s s' H; cbn [app iter] in *.
      - injection H as ->. reflexivity.
      - unfold bind in *. destruct (data_run c d a s) as [s1 [[]|e]]; [|discriminate]. auto. }
    rewrite (X _ _ _ _ I). cbn [iter]. unfold bind.
    rewrite (data_fail c d w bad s' e W U); [reflexivity|]. rewrite LB. exact PE.
  - rewrite E. reflexivity.
  - rewrite E. unfold pc. cbn. lia.
Qed.
Print Assumptions C18_rejected.

Example C18_example :
  let s := demo_state ["nop"]%string in
  names demo #".DW" D_dw /\ reads s [#"$1234"; #"foo"; #"-2"] [#"$1234"; #"foo"; #"-2"] /\
  Forall2 (fun t x => unquoted t /\ parse_integer demo_p (labels s) t 16 false = Ok x)
    [#"$1234"; #"foo"; #"-2"] [Some 0x1234; None; Some 0xfffe] /\
  assembled (fst (assemble demo 5 #".dw $1234,foo,-2" s)) = [234; 0x34; 0x12; 0; 0; 0xfe; 0xff] /\
  dget Z.eqb (labels_addresses (fst (assemble demo 5 #".dw $1234,foo,-2" s))) 3
    = Some (LabelData #"foo" 2 16 0 0 1 None None None) /\
  parse_integer demo_p (labels s) #"$10000" 16 false = Err (AExc (NotInBitRange 65536 16 None)).
Proof.
  cbv zeta. split; [vm_compute; reflexivity|]. split; [|split; [|split; [|split]; vm_compute; reflexivity]].
  - apply (reads_self (demo_state ["nop"]%string) [#"$1234"; #"foo"; #"-2"]).
  - assert (Q : forall c r, c <> dquote -> c <> squote -> unquoted (c :: r)) by (intros; do 2 eexists; eauto).
    repeat (apply Forall2_cons; [split; [apply Q; discriminate|vm_compute; reflexivity]|]). apply Forall2_nil.
Qed.
