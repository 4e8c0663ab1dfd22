(** Operands of 68000 instructions: values and addressing modes. *)
From Coq Require Import Lia.
From Verif Require Import Py PyFacts Utils Tokenizer State Assembler SpecUtils SpecExec SpecLink
  UtilsFacts SpecCpu Instr CpuFacts WordFacts FitFacts Mc68000 SpecM68 M68Lex.
Local Open Scope Z_scope.


(** ** Values *)

Lemma bind_ok : forall A B (m : M A) (k : A -> M B) s s' r,
  bind m k s = (s', Ok r) <-> exists s1 a, m s = (s1, Ok a) /\ k a s1 = (s', Ok r).
Proof.
  intros A B m k s s' r. unfold bind. destruct (m s) as [s1 [a|e]]; split.
  - intros H. eauto.
  - intros (s2 & a' & E & H). injection E as <- <-. exact H.
  - discriminate.
  - intros (s2 & a' & E & _). discriminate.
Qed.
Lemma ret_bind : forall A B (a : A) (k : A -> M B), bind (ret a) k = k a. Proof. reflexivity. Qed.
Lemma lift_bind : forall A B (a : A) (k : A -> M B), bind (lift (Ok a)) k = k a. Proof. reflexivity. Qed.
Lemma get_bind : forall B (k : st -> M B) s, bind get k s = k s s. Proof. reflexivity. Qed.
Lemma lift_ok : forall A (r : res A) s s' a, lift r s = (s', Ok a) <-> r = Ok a /\ s' = s.
Proof. intros A r s s' a. unfold lift. split; [intros H; injection H as <- ->; auto|intros [-> ->]; reflexivity]. Qed.
Lemma ret_ok : forall A (x : A) s s' a, ret x s = (s', Ok a) <-> a = x /\ s' = s.
Proof. intros A r s s' a. unfold ret. split; [intros H; injection H as <- ->; auto|intros [-> ->]; reflexivity]. Qed.

Lemma msb_int : forall n v, int_bytes true n v = msb n v.
Proof. intros n. cbn [int_bytes]. induction n as [|n IH]; intros v; cbn [le_bytes rev msb]; [reflexivity|]. rewrite IH. reflexivity. Qed.
Lemma msb_length : forall n v, length (msb n v) = n.
Proof. intros n v. rewrite <- msb_int. apply int_bytes_length. Qed.
Lemma msb_zlen : forall n v, zlen (msb n v) = Z.of_nat n.
Proof. intros. unfold zlen. rewrite msb_length. reflexivity. Qed.
Lemma msb_mod : forall n v, msb n (v mod 2 ^ (8 * Z.of_nat n)) = msb n v.
Proof.
  induction n as [|n IH]; intros v; [reflexivity|]. cbn [msb].
  replace (2 ^ (8 * Z.of_nat (S n))) with (256 * 2 ^ (8 * Z.of_nat n))
    by (change 256 with (2 ^ 8); rewrite <- Z.pow_add_r by lia; f_equal; lia).
  assert (0 < 2 ^ (8 * Z.of_nat n)) by (apply Z.pow_pos_nonneg; lia).
  rewrite Z.rem_mul_r by lia. f_equal.
  - rewrite (Z.mul_comm 256), Z.div_add by lia. rewrite (Z.div_small (v mod 256)) by (apply Z.mod_pos_bound; lia). apply IH.
  - f_equal. rewrite (Z.mul_comm 256), Z.mod_add by lia. apply Z.mod_mod. lia.
Qed.
Lemma pack16 : forall v, pack_be16u [Some v] = Ok (msb 2 v).
Proof.
  intros v. unfold pack_be16u, pack_u. cbn [map struct_pack masked]. unfold struct_pack1. cbn [sf_signed sf_size].
  change 65535 with (2 ^ 16 - 1). rewrite land_ones_mod by lia.
  pose proof (Z.mod_pos_bound v (2 ^ 16) ltac:(lia)) as B. change (8 * Z.of_nat 2) with 16.
  replace ((0 <=? v mod 2 ^ 16) && (v mod 2 ^ 16 <? 2 ^ 16)) with true by (symmetry; apply andb_true_intro; split; lia).
  cbn [rbind]. rewrite app_nil_r, msb_int. f_equal. apply (msb_mod 2).
Qed.
Lemma pack32 : forall v, pack_be32u [Some v] = Ok (msb 4 v).
Proof.
  intros v. unfold pack_be32u, pack_u. cbn [map struct_pack masked]. unfold struct_pack1. cbn [sf_signed sf_size].
  change 4294967295 with (2 ^ 32 - 1). rewrite land_ones_mod by lia.
  pose proof (Z.mod_pos_bound v (2 ^ 32) ltac:(lia)) as B. change (8 * Z.of_nat 4) with 32.
  replace ((0 <=? v mod 2 ^ 32) && (v mod 2 ^ 32 <? 2 ^ 32)) with true by (symmetry; apply andb_true_intro; split; lia).
  cbn [rbind]. rewrite app_nil_r, msb_int. f_equal. apply (msb_mod 4).
Qed.
(** A word of bit fields. *)
Lemma pack_fields : forall base fs top, descending top fs -> Forall fits_field fs -> (2 ^ top | base) ->
  pack_bits_be16u base fs = Ok (msb 2 (base + field_sum fs)).
Proof. intros base fs top D F B. unfold pack_bits_be16u. rewrite (pack_sum fs top base D F B). cbn [rbind]. apply pack16. Qed.

(** The reference for a value. *)
Definition slot_ref (s : st) (off : Z) (sl : slot) (t : str) : labeldata :=
  LabelData t (Z.of_nat (sl_bytes sl)) (sl_bits sl) (base_of s off sl) off (sl_align sl)
    (match sl_word sl with Some _ => Some (sl_bits sl - 1, 0) | None => None end) None None.
Lemma poil_slot : forall sl t sg s off s' v, sg || negb (base_of s off sl =? 0) = sl_signed sl ->
  parse_integer_or_label mc_p (slot_ref s off sl t) sg s = (s', Ok v) <->
  (num mc_p s t (sl_bits sl) (sl_signed sl) v /\ s' = s) \/
  (not_num mc_p s t (sl_bits sl) (sl_signed sl) /\ v = 0 /\ s' = referring s [slot_ref s off sl t]).
Proof.
  intros sl t sg s off s' v SG. rewrite poil_eq. unfold num, not_num. cbn [slot_ref ld_label ld_bits_size ld_relative].
  rewrite SG. destruct (parse_integer mc_p (labels s) t (sl_bits sl) (sl_signed sl)) as [[x|]|e]; split.
  - intros H. injection H as <- <-. auto.
  - intros [[H ->]|[H _]]; [injection H as ->; reflexivity|discriminate].
  - intros H. injection H as <- <-. auto.
  - intros [[H _]|(_ & -> & ->)]; [discriminate|reflexivity].
  - discriminate.
  - intros [[H _]|[H _]]; discriminate.
Qed.
Definition packs (sl : slot) (pk : Z -> res bytes) : Prop := forall v, - 2 ^ (sl_bits sl - 1) <= v < 2 ^ sl_bits sl ->
  (sl_signed sl = false -> 0 <= v) -> pk v = Ok (msb (sl_bytes sl) (rest_of sl + v mod 2 ^ sl_bits sl)).
Lemma slot_item : forall sl t sg s off pk s' b, 1 <= sl_bits sl -> sg || negb (base_of s off sl =? 0) = sl_signed sl -> packs sl pk ->
  (exists s1 v, parse_integer_or_label mc_p (slot_ref s off sl t) sg s = (s1, Ok v) /\ pk v = Ok b /\ s' = s1) <->
  exists ds, stored_item mc_p s off (Val sl t) b ds /\ s' = referring s ds.
Proof.
  intros sl t sg s off pk s' b B1 SG PK.
  assert (P0 : pk 0 = Ok (msb (sl_bytes sl) (rest_of sl))).
  { rewrite PK; [|split; [pose proof (Z.pow_nonneg 2 (sl_bits sl - 1)); lia|apply Z.pow_pos_nonneg; lia]|lia].
    rewrite Z.mod_0_l by (apply Z.pow_nonzero; lia). rewrite Z.add_0_r. reflexivity. }
  split.
  - intros (s1 & v & P & K & ->). apply poil_slot in P; [|exact SG]. destruct P as [[N ->]|(N & -> & ->)].
    + rewrite PK in K; [|eapply num_range; eauto|intros X; rewrite X in N; apply unum_range in N; lia].
      injection K as <-. exists []. split; [constructor; exact N|reflexivity].
    + rewrite P0 in K. injection K as <-. exists [slot_ref s off sl t]. split; [apply si_name; exact N|reflexivity].
  - intros (ds & ST & ->). inversion ST as [|sl' t' v N|sl' t' N]; subst.
    + exists s, v. split; [apply poil_slot; auto|]. split; [|reflexivity].
      apply PK; [eapply num_range; eauto|intros X; rewrite X in N; apply unum_range in N; lia].
    + exists (referring s [slot_ref s off sl t]), 0. split; [apply poil_slot; auto|]. split; [exact P0|reflexivity].
Qed.

Lemma items_one : forall p s off i b ds, stored_items p s off [i] b ds <-> stored_item p s off i b ds.
Proof.
  intros. split; intros H.
  - inversion H as [|? ? ? b0 bs d0 es H1 H2]; subst. inversion H2; subst. rewrite !app_nil_r. exact H1.
  - rewrite <- (app_nil_r b), <- (app_nil_r ds). econstructor; [exact H|constructor].
Qed.
Lemma items_nil : forall p s off b ds, stored_items p s off [] b ds <-> b = [] /\ ds = [].
Proof. intros. split; [intros H; inversion H; auto|intros [-> ->]; constructor]. Qed.

(** Read a value, pack it and go on. *)
Lemma slot_then : forall B sl t sg s off pk (k : bytes -> M B) s' r, 1 <= sl_bits sl ->
  sg || negb (base_of s off sl =? 0) = sl_signed sl -> packs sl pk ->
  bind (parse_integer_or_label mc_p (slot_ref s off sl t) sg) (fun v => bind (lift (pk v)) k) s = (s', Ok r) <->
  exists b ds, stored_items mc_p s off [Val sl t] b ds /\ k b (referring s ds) = (s', Ok r).
Proof.
  intros B sl t sg s off pk k s' r B1 SG PK. rewrite bind_ok. split.
  - intros (s1 & v & P & K). apply bind_ok in K. destruct K as (s2 & b & L & K). apply lift_ok in L. destruct L as [L ->].
    destruct (slot_item sl t sg s off pk s1 b B1 SG PK) as [X _]. destruct X as (ds & ST & ->); [eauto|].
    exists b, ds. split; [apply items_one; exact ST|exact K].
  - intros (b & ds & ST & K). apply (proj1 (items_one _ _ _ _ _ _)) in ST.
    destruct (slot_item sl t sg s off pk (referring s ds) b B1 SG PK) as [_ X]. destruct X as (s1 & v & P & L & E); [eauto|].
    exists s1, v. split; [exact P|]. apply bind_ok. exists s1, b. split; [apply lift_ok; auto|]. rewrite <- E. exact K.
Qed.

Ltac pk16 := intros v R S; rewrite pack16; cbn [sl_bytes sl_bits sl_signed rest_of sl_word] in *; f_equal.
Lemma packs_imm8 : packs imm8 (fun v => pack_be16u [Some v]).
Proof. pk16. unfold imm8 in *. cbn [sl_bits sl_signed] in *. rewrite Z.mod_small; [reflexivity|]. specialize (S eq_refl). lia. Qed.
Lemma packs_half : forall sl, sl_bytes sl = 2%nat -> sl_bits sl = 16 -> sl_word sl = None -> packs sl (fun v => pack_be16u [Some v]).
Proof. intros sl B1 B2 W v R S. rewrite pack16, B1, B2. unfold rest_of. rewrite W. cbn [Z.add]. f_equal. symmetry. apply (msb_mod 2). Qed.
Lemma packs_long : packs long32 (fun v => pack_be32u [Some v]).
Proof. intros v R S. rewrite pack32. f_equal. symmetry. apply (msb_mod 4). Qed.
Lemma packs_ext : forall sl k n z, sl_bytes sl = 2%nat -> sl_bits sl = 8 -> sl_word sl = Some (k * 32768 + n * 4096 + z * 2048) ->
  0 <= k < 2 -> 0 <= n < 8 -> 0 <= z < 2 ->
  packs sl (fun v => pack_bits_be16u 0 [((15, 15), k); ((14, 12), n); ((11, 11), z); ((7, 0), v)]).
Proof.
  intros sl k n z B1 B2 W K N ZZ v R S. rewrite B2 in R. rewrite B1, B2. unfold rest_of. rewrite W.
  rewrite (pack_fields 0 _ 16); [|repeat split; lia| |exists 0; reflexivity].
  - f_equal. f_equal. cbn [field_sum fold_right].
    change (2 ^ (15 - 15 + 1)) with 2. change (2 ^ (14 - 12 + 1)) with 8. change (2 ^ (11 - 11 + 1)) with 2. change (2 ^ (7 - 0 + 1)) with 256.
    change (2 ^ 15) with 32768. change (2 ^ 12) with 4096. change (2 ^ 11) with 2048. change (2 ^ 0) with 1. change (2 ^ 8) with 256.
    rewrite (Z.mod_small k), (Z.mod_small n), (Z.mod_small z) by lia. lia.
  - repeat constructor; cbn [fits_field];
      change (2 ^ (15 - 15)) with 1; change (2 ^ (15 - 15 + 1)) with 2; change (2 ^ (14 - 12)) with 4; change (2 ^ (14 - 12 + 1)) with 8;
      change (2 ^ (11 - 11)) with 1; change (2 ^ (11 - 11 + 1)) with 2; change (2 ^ (7 - 0)) with 128; change (2 ^ (7 - 0 + 1)) with 256;
      change (2 ^ (8 - 1)) with 128 in R; change (2 ^ 8) with 256 in R; lia.
Qed.

(** ** The branches of the addressing mode decoder *)

Lemma skipn_nth : forall A n (l : list A) i, nth_error (skipn n l) i = nth_error l (n + i).
Proof. intros A n. induction n as [|n IH]; intros [|x l] i; cbn [skipn plus nth_error]; auto. destruct i; reflexivity. Qed.
Lemma tok_known : forall tokens start ts rest i t, skipn start tokens = ts ++ rest -> nth_error ts i = Some t ->
  tok_at tokens (start + i) = ret t.
Proof.
  intros tokens start ts rest i t S N. unfold tok_at. rewrite <- skipn_nth, S, nth_error_app1, N; [reflexivity|].
  apply nth_error_Some. congruence.
Qed.
Lemma tok_known0 : forall tokens start ts rest t, skipn start tokens = t :: ts ++ rest -> tok_at tokens start = ret t.
Proof. intros tokens start ts rest t S. rewrite <- (Nat.add_0_r start). apply (tok_known tokens start (t :: ts) rest); [exact S|reflexivity]. Qed.

Lemma unbound_eq : forall tokens start ps, ps <> [] -> unbound_match tokens start ps =
  if match_all imatch1 ps (skipn start tokens) then Some (start + length ps)%nat else None.
Proof.
  intros tokens start ps N. unfold unbound_match. destruct (match_all imatch1 ps (skipn start tokens)) eqn:M; [|rewrite andb_false_r; reflexivity].
  assert (L : (length ps <= length (skipn start tokens))%nat).
  { revert M. generalize (skipn start tokens). clear. induction ps as [|p ps IH]; intros [|t l] M; cbn [length match_all] in *; try lia; try discriminate.
    apply andb_prop in M. destruct M as [_ M]. apply IH in M. lia. }
  rewrite skipn_length in L. destruct ps as [|p ps]; [congruence|]. cbn [length] in *.
  replace (Nat.leb (start + S (length ps)) (length tokens)) with true by (symmetry; apply Nat.leb_le; lia). reflexivity.
Qed.

Definition row := (str * list pattern * mc_shape)%type.
Definition tries (ts : list str) (bl : list str) (r : row) : bool :=
  let '(name, ps, _) := r in match_all imatch1 ps ts && negb (str_in name bl).
Lemma find_ext_in : forall A (f g : A -> bool) l, (forall x, In x l -> f x = g x) -> find f l = find g l.
Proof.
  intros A f g l. induction l as [|x l IH]; intros H; [reflexivity|]. cbn [find]. rewrite (H x) by (left; reflexivity).
  destruct (g x); [reflexivity|]. apply IH. intros y I. apply H. right. exact I.
Qed.
Lemma mc_find_eq : forall tokens start bl, mc_find tokens start bl = find (tries (skipn start tokens) bl) mc_rows.
Proof.
  intros tokens start bl. unfold mc_find. apply find_ext_in. intros [[name ps] sh] I. unfold tries.
  rewrite unbound_eq.
  - destruct (match_all imatch1 ps (skipn start tokens)); reflexivity.
  - intros ->. unfold mc_rows in I. cbn [In] in I. repeat (destruct I as [I|I]; [discriminate I|]). destruct I.
Qed.
Lemma find_before : forall A (f : A -> bool) l1 y l2 x, find f (l1 ++ y :: l2) = Some x -> f y = true -> In x (l1 ++ [y]).
Proof.
  intros A f l1. induction l1 as [|a l1 IH]; intros y l2 x H Y; cbn [app find] in H.
  - rewrite Y in H. injection H as ->. left. reflexivity.
  - cbn [app]. destruct (f a); [injection H as ->; left; reflexivity|right; eapply IH; eauto].
Qed.

Inductive cls := Any | Alt | Ctl.
Definition black (c : cls) : list str := match c with Any => [] | Alt => not_alterable | Ctl => not_control end.
Definition allowed (c : cls) (m r : Z) : Prop := match c with Any => True | Alt => alterable m r | Ctl => control m r end.

(** What the body of a branch does. *)
Definition body_ok (sz : Z) (sh : mc_shape) (ts : list str) (m r : Z) (items : list item) : Prop :=
  forall tokens start rest off s s' m' r' b, 0 <= pc s -> 0 <= off -> skipn start tokens = ts ++ rest ->
    mc_body sh tokens start off sz s = (s', Ok (m', r', b)) <->
    m' = m /\ r' = r /\ exists ds, stored_items mc_p s (2 + off) items b ds /\ s' = referring s ds.

Lemma reg_body : forall sz ts m i t n, nth_error ts i = Some t -> mc_reg t = Ok n -> body_ok sz (ShReg m i) ts m n [].
Proof.
  intros sz ts m i t n N R tokens start rest off s s' m' r' b PC OF S. cbn [mc_body].
  rewrite (tok_known _ _ _ _ _ _ S N), ret_bind, R, lift_bind, ret_ok. split.
  - intros [E ->]. injection E as -> -> ->. split; [reflexivity|]. split; [reflexivity|]. exists []. split; [constructor|reflexivity].
  - intros (-> & -> & ds & ST & ->). apply items_nil in ST. destruct ST as [-> ->]. split; reflexivity.
Qed.
(** Read a value, pack it, return. *)
Lemma slot_body : forall sl t sg s off pk (m r : Z) s' m' r' b, 1 <= sl_bits sl ->
  sg || negb (base_of s off sl =? 0) = sl_signed sl -> packs sl pk ->
  bind (parse_integer_or_label mc_p (slot_ref s off sl t) sg) (fun v => bind (lift (pk v)) (fun x => ret (m, r, x))) s = (s', Ok (m', r', b)) <->
  m' = m /\ r' = r /\ exists ds, stored_items mc_p s off [Val sl t] b ds /\ s' = referring s ds.
Proof.
  intros sl t sg s off pk m r s' m' r' b B1 SG PK. rewrite slot_then by assumption. split.
  - intros (b' & ds & ST & R). apply ret_ok in R. destruct R as [E ->]. injection E as -> -> ->. eauto.
  - intros (-> & -> & ds & ST & ->). exists b, ds. split; [exact ST|]. apply ret_ok. auto.
Qed.

Lemma abs_w_body : forall t off s s' m' r' b, mc_abs_w t off s = (s', Ok (m', r', b)) <->
  m' = 7 /\ r' = 0 /\ exists ds, stored_items mc_p s (2 + off) [Val word16 t] b ds /\ s' = referring s ds.
Proof.
  intros t off s s' m' r' b. apply (slot_body word16 t false s (2 + off) (fun v => pack_be16u [Some v])); [cbn; lia|reflexivity|].
  apply packs_half; reflexivity.
Qed.
Lemma abs_l_body : forall t off s s' m' r' b, mc_abs_l t off s = (s', Ok (m', r', b)) <->
  m' = 7 /\ r' = 1 /\ exists ds, stored_items mc_p s (2 + off) [Val long32 t] b ds /\ s' = referring s ds.
Proof.
  intros t off s s' m' r' b. apply (slot_body long32 t false s (2 + off) (fun v => pack_be32u [Some v])); [cbn; lia|reflexivity|].
  apply packs_long.
Qed.

Definition size_ok (sz : Z) : Prop := sz = 1 \/ sz = 2 \/ sz = 4.
Lemma packer_then : forall B t sz off s (k : bytes -> M B) s' r, size_ok sz ->
  bind (mc_packer t sz off) k s = (s', Ok r) <->
  exists b ds, stored_items mc_p s (2 + off) [Val (imm sz) t] b ds /\ k b (referring s ds) = (s', Ok r).
Proof.
  intros B t sz off s k s' r Z0.
  assert (BA : forall A C D (m : M A) (f : A -> M C) (g : C -> M D) s, bind (bind m f) g s = bind m (fun x => bind (f x) g) s).
  { intros. unfold bind. destruct (m s0) as [s1 [a|e]]; reflexivity. }
  unfold mc_packer. rewrite BA. destruct Z0 as [-> | [-> | ->]].
  - apply (slot_then B imm8 t false s (2 + off) (fun v => pack_be16u [Some v]) k); [cbn; lia|reflexivity|apply packs_imm8].
  - apply (slot_then B word16 t false s (2 + off) (fun v => pack_be16u [Some v]) k); [cbn; lia|reflexivity|apply packs_half; reflexivity].
  - apply (slot_then B long32 t false s (2 + off) (fun v => pack_be32u [Some v]) k); [cbn; lia|reflexivity|apply packs_long].
Qed.


Lemma bind_ext : forall A B (m : M A) (f g : A -> M B) s, (forall a s1, f a s1 = g a s1) -> bind m f s = bind m g s.
Proof. intros A B m f g s H. unfold bind. destruct (m s) as [s1 [a|e]]; [apply H|reflexivity]. Qed.

Lemma disp_body : forall sz x t n, mc_reg t = Ok n -> body_ok sz ShDisp [#"("; x; t; #")"] 5 n [Val disp16 x].
Proof.
  intros sz x t n R tokens start rest off s s' m' r' b PC OF S. cbn [mc_body].
  rewrite (tok_known _ _ _ _ 1 x S eq_refl), ret_bind.
  rewrite (bind_ext _ _ _ _ (fun v => bind (lift (pack_be16u [Some v])) (fun b => ret (5, n, b)))).
  - apply (slot_body disp16 x true s (2 + off) (fun v => pack_be16u [Some v])); [cbn; lia|reflexivity|apply packs_half; reflexivity].
  - intros a s1. rewrite (tok_known _ _ _ _ 2 t S eq_refl), ret_bind, R. reflexivity.
Qed.
Lemma index_body : forall sz x t n i w, mc_reg t = Ok n -> index i w -> body_ok sz ShIndex [#"("; x; t; i; #")"] 6 n [Val (index8 w) x].
Proof.
  intros sz x t n i w R I tokens start rest off s s' m' r' b PC OF S. cbn [mc_body].
  destruct (index_value i w I) as (k & xn & z & IV & W & K & N & Z0).
  rewrite (tok_known _ _ _ _ 1 x S eq_refl), ret_bind.
  rewrite (bind_ext _ _ _ _ (fun v => bind (lift (pack_bits_be16u 0 [((15, 15), k); ((14, 12), xn); ((11, 11), z); ((7, 0), v)])) (fun b => ret (6, n, b)))).
  - apply (slot_body (index8 w) x true s (2 + off) (fun v => pack_bits_be16u 0 [((15, 15), k); ((14, 12), xn); ((11, 11), z); ((7, 0), v)])); [cbn; lia|reflexivity|].
    apply packs_ext; try lia; try reflexivity. rewrite W. reflexivity.
  - intros a s1. rewrite (tok_known _ _ _ _ 3 i S eq_refl), ret_bind, IV, lift_bind, (tok_known _ _ _ _ 2 t S eq_refl), ret_bind, R. reflexivity.
Qed.
Lemma here_base : forall s off, 0 <= pc s -> 0 <= off -> (pc s + (2 + off) + 0 =? 0) = false.
Proof. intros. apply Z.eqb_neq. lia. Qed.
Lemma here_eq : forall s off, pc s + 2 + off = pc s + (2 + off) + 0.
Proof. intros. lia. Qed.
Lemma pc_disp_body : forall sz x t, body_ok sz ShPcDisp [#"("; x; t; #")"] 7 2 [Val pc_disp16 x].
Proof.
  intros sz x t tokens start rest off s s' m' r' b PC OF S. cbn [mc_body].
  rewrite (tok_known _ _ _ _ 1 x S eq_refl), ret_bind, get_bind, here_eq.
  apply (slot_body pc_disp16 x false s (2 + off) (fun v => pack_be16u [Some v])); [cbn; lia| |apply packs_half; reflexivity].
  cbn [base_of pc_disp16 sl_from sl_signed]. rewrite here_base by assumption. reflexivity.
Qed.
Lemma pc_index_body : forall sz x t i w, index i w -> body_ok sz ShPcIndex [#"("; x; t; i; #")"] 7 3 [Val (pc_index8 w) x].
Proof.
  intros sz x t i w I tokens start rest off s s' m' r' b PC OF S. cbn [mc_body].
  destruct (index_value i w I) as (k & xn & z & IV & W & K & N & Z0).
  rewrite (tok_known _ _ _ _ 1 x S eq_refl), ret_bind, get_bind, here_eq.
  rewrite (bind_ext _ _ _ _ (fun v => bind (lift (pack_bits_be16u 0 [((15, 15), k); ((14, 12), xn); ((11, 11), z); ((7, 0), v)])) (fun b => ret (7, 3, b)))).
  - apply (slot_body (pc_index8 w) x false s (2 + off) (fun v => pack_bits_be16u 0 [((15, 15), k); ((14, 12), xn); ((11, 11), z); ((7, 0), v)])); [cbn; lia| |].
    + cbn [base_of pc_index8 sl_from sl_signed]. rewrite here_base by assumption. reflexivity.
    + apply packs_ext; try lia; try reflexivity. rewrite W. reflexivity.
  - intros a s1. rewrite (tok_known _ _ _ _ 3 i S eq_refl), ret_bind, IV. reflexivity.
Qed.
Lemma par_w_body : forall sz x u, body_ok sz ShAbsW [#"("; x; #")"; u] 7 0 [Val word16 x].
Proof.
  intros sz x u tokens start rest off s s' m' r' b PC OF S. cbn [mc_body].
  rewrite (tok_known _ _ _ _ 1 x S eq_refl), ret_bind. apply abs_w_body.
Qed.
Lemma par_l_body : forall sz x u, body_ok sz ShAbsL [#"("; x; #")"; u] 7 1 [Val long32 x].
Proof.
  intros sz x u tokens start rest off s s' m' r' b PC OF S. cbn [mc_body].
  rewrite (tok_known _ _ _ _ 1 x S eq_refl), ret_bind. apply abs_l_body.
Qed.
Lemma alias_w_body : forall sz x suf, lower suf = #".w" -> body_ok sz ShAliasW [x ++ suf] 7 0 [Val word16 x].
Proof.
  intros sz x suf E tokens start rest off s s' m' r' b PC OF S. cbn [mc_body].
  rewrite (tok_known0 _ _ [] rest (x ++ suf) S), ret_bind.
  destruct (suffix_of "w" x suf E) as (_ & -> & _). apply abs_w_body.
Qed.
Lemma alias_l_body : forall sz x suf, lower suf = #".l" -> body_ok sz ShAliasL [x ++ suf] 7 1 [Val long32 x].
Proof.
  intros sz x suf E tokens start rest off s s' m' r' b PC OF S. cbn [mc_body].
  rewrite (tok_known0 _ _ [] rest (x ++ suf) S), ret_bind.
  destruct (suffix_of "l" x suf E) as (_ & -> & _). apply abs_l_body.
Qed.
Lemma alias_body : forall sz x, body_ok sz ShAlias [x] 7 1 [Val long32 x].
Proof.
  intros sz x tokens start rest off s s' m' r' b PC OF S. cbn [mc_body].
  rewrite (tok_known0 _ _ [] rest x S), ret_bind. apply abs_l_body.
Qed.
Lemma imm_body : forall sz x, size_ok sz -> body_ok sz ShImm [#"#" ++ x] 7 4 [Val (imm sz) x].
Proof.
  intros sz x Z0 tokens start rest off s s' m' r' b PC OF S. cbn [mc_body].
  rewrite (tok_known0 _ _ [] rest (#"#" ++ x) S), ret_bind.
  change (skipn 1 (#"#" ++ x)) with x. rewrite packer_then by exact Z0. split.
  - intros (b' & ds & ST & R). apply ret_ok in R. destruct R as [E ->]. injection E as -> -> ->. eauto.
  - intros (-> & -> & ds & ST & ->). exists b, ds. split; [exact ST|]. apply ret_ok. auto.
Qed.

Lemma match_cons : forall p ps ts, match_all imatch1 (p :: ps) ts = true <->
  exists t l, ts = t :: l /\ imatch1 p t = true /\ match_all imatch1 ps l = true.
Proof.
  intros p ps [|t l]; cbn [match_all]; split; intros H; try discriminate.
  - destruct H as (t & l & E & _). discriminate.
  - apply andb_prop in H. eauto.
  - destruct H as (t' & l' & E & A & B). injection E as <- <-. rewrite A, B. reflexivity.
Qed.

(** A branch that matches has found an operand. *)
Lemma row_sound : forall name ps sh sz all, In (name, ps, sh) mc_rows -> match_all imatch1 ps all = true ->
  (sh = ShAlias -> match all with [] => True | t :: _ => no_size t end) -> (size_ok sz \/ name <> #"#<data>") ->
  exists ts rest m r items, all = ts ++ rest /\ length ps = length ts /\ ea false sz ts m r items /\ body_ok sz sh ts m r items /\
    forall c, str_in name (black c) = false -> allowed c m r.
Proof.
  intros name ps sh sz all I H NS SZ.
  unfold mc_rows in I. cbn [In] in I.
  Ltac next H t l := apply match_cons in H; let M := fresh "M" in destruct H as (t & l & -> & M & H).
  Ltac found := split; [reflexivity|split; [reflexivity|split; [|split]]].
  repeat destruct I as [I|I]; try (injection I as <- <- <-); try destruct I.
  - next H t l. apply match_d in M. destruct M as (n & D). exists [t], l, 0, n, [].
    found; [apply ea_d; exact D|eapply reg_body; [reflexivity|apply reg_value; auto]|].
    intros [] B; try discriminate B; cbn [allowed]; [exact Logic.I|]. unfold alterable. lia.
  - next H t l. apply match_a in M. destruct M as (n & D). exists [t], l, 1, n, [].
    found; [apply ea_a; exact D|eapply reg_body; [reflexivity|apply reg_value; auto]|].
    intros [] B; try discriminate B; cbn [allowed]; exact Logic.I.
  - next H t l. next H t0 l0. next H t1 l. next H t2 l0. apply match_open in M. apply match_a in M0. apply match_close in M1. apply match_plus in M2. subst.
    destruct M0 as (n & D). exists [#"("; t0; #")"; #"+"], l0, 3, n, [].
    found; [apply ea_post; exact D|eapply (reg_body _ _ _ 1); [reflexivity|apply reg_value; auto]|].
    intros [] B; try discriminate B; cbn [allowed]; [exact Logic.I|]. unfold alterable. lia.
  - next H t l. next H t0 l0. next H t1 l. apply match_open in M. apply match_a in M0. apply match_close in M1. subst.
    destruct M0 as (n & D). exists [#"("; t0; #")"], l, 2, n, [].
    found; [apply ea_at; exact D|eapply (reg_body _ _ _ 1); [reflexivity|apply reg_value; auto]|].
    intros [] B; try discriminate B; cbn [allowed]; [exact Logic.I| |]; unfold alterable, control; lia.
  - next H t l. next H t0 l0. next H t1 l. next H t2 l0. apply match_minus in M. apply match_open in M0. apply match_a in M1. apply match_close in M2. subst.
    destruct M1 as (n & D). exists [#"-"; #"("; t1; #")"], l0, 4, n, [].
    found; [apply ea_pre; exact D|eapply (reg_body _ _ _ 2); [reflexivity|apply reg_value; auto]|].
    intros [] B; try discriminate B; cbn [allowed]; [exact Logic.I|]. unfold alterable. lia.
  - next H t l. next H t0 l0. next H t1 l. next H t2 l0. apply match_open in M. apply match_value in M0. apply match_a in M1. apply match_close in M2. subst.
    destruct M1 as (n & D). exists [#"("; t0; t1; #")"], l0, 5, n, [Val disp16 t0].
    found; [apply ea_disp; assumption|apply disp_body, reg_value; auto|].
    intros [] B; try discriminate B; cbn [allowed]; [exact Logic.I| |]; unfold alterable, control; lia.
  - next H t l. next H t0 l0. next H t1 l. next H t2 l0. next H t3 l. apply match_open in M. apply match_value in M0. apply match_a in M1. apply index_match in M2. apply match_close in M3. subst.
    destruct M1 as (n & D). destruct M2 as (w & X). exists [#"("; t0; t1; t2; #")"], l, 6, n, [Val (index8 w) t0].
    found; [apply ea_index; assumption|apply index_body; [apply reg_value; auto|exact X]|].
    intros [] B; try discriminate B; cbn [allowed]; [exact Logic.I| |]; unfold alterable, control; lia.
  - next H t l. next H t0 l0. next H t1 l. next H t2 l0. apply match_open in M. apply match_value in M0. apply match_pc in M1. apply match_close in M2. subst.
    exists [#"("; t0; t1; #")"], l0, 7, 2, [Val pc_disp16 t0].
    found; [apply ea_pc_disp; assumption|apply pc_disp_body|].
    intros [] B; try discriminate B; cbn [allowed]; [exact Logic.I|]; unfold alterable, control; lia.
  - next H t l. next H t0 l0. next H t1 l. next H t2 l0. next H t3 l. apply match_open in M. apply match_value in M0. apply match_pc in M1. apply index_match in M2. apply match_close in M3. subst.
    destruct M2 as (w & X). exists [#"("; t0; t1; t2; #")"], l, 7, 3, [Val (pc_index8 w) t0].
    found; [apply ea_pc_index; assumption|apply pc_index_body; exact X|].
    intros [] B; try discriminate B; cbn [allowed]; [exact Logic.I|]; unfold alterable, control; lia.
  - next H t l. next H t0 l0. next H t1 l. next H t2 l0. apply match_open in M. apply match_value in M0. apply match_close in M1. apply match_w in M2. subst.
    exists [#"("; t0; #")"; t2], l0, 7, 0, [Val word16 t0].
    found; [apply ea_abs_w; assumption|apply par_w_body|].
    intros [] B; try discriminate B; cbn [allowed]; [exact Logic.I| |]; unfold alterable, control; lia.
  - next H t l. next H t0 l0. next H t1 l. next H t2 l0. apply match_open in M. apply match_value in M0. apply match_close in M1. apply match_l in M2. subst.
    exists [#"("; t0; #")"; t2], l0, 7, 1, [Val long32 t0].
    found; [apply ea_abs_l; assumption|apply par_l_body|].
    intros [] B; try discriminate B; cbn [allowed]; [exact Logic.I| |]; unfold alterable, control; lia.
  - next H t l. apply match_imm in M. destruct M as (x & -> & X). exists [#"#" ++ x], l, 7, 4, [Val (imm sz) x].
    found; [apply ea_imm; exact X|apply imm_body; destruct SZ as [SZ|[]]; [exact SZ|reflexivity]|].
    intros [] B; try discriminate B; cbn [allowed]; exact Logic.I.
  - next H t l. apply match_abs_w in M. destruct M as (V & x & suf & -> & X). exists [x ++ suf], l, 7, 0, [Val word16 x].
    found; [apply ea_w; assumption|apply alias_w_body; exact X|].
    intros [] B; try discriminate B; cbn [allowed]; [exact Logic.I| |]; unfold alterable, control; lia.
  - next H t l. apply match_abs_l in M. destruct M as (V & x & suf & -> & X). exists [x ++ suf], l, 7, 1, [Val long32 x].
    found; [apply ea_l; assumption|apply alias_l_body; exact X|].
    intros [] B; try discriminate B; cbn [allowed]; [exact Logic.I| |]; unfold alterable, control; lia.
  - next H t l. apply match_value in M. exists [t], l, 7, 1, [Val long32 t].
    found; [apply ea_addr; [exact M|apply NS; reflexivity]|apply alias_body|].
    intros [] B; try discriminate B; cbn [allowed]; [exact Logic.I| |]; unfold alterable, control; lia.
Qed.

Lemma mode_eq : forall tokens start off sz c, mc_mode tokens start off sz (black c) =
  match find (tries (skipn start tokens) (black c)) mc_rows with
  | Some (_, ps, sh) => bind (mc_body sh tokens start off sz) (fun r => let '(m, xn, b) := r in ret ((start + length ps)%nat, m, xn, b))
  | None => araise InvalidMode
  end.
Proof.
  intros. unfold mc_mode. replace (negb (forallb (fun b => str_in b mc_modes) (black c))) with false by (destruct c; reflexivity).
  rewrite mc_find_eq. destruct (find (tries (skipn start tokens) (black c)) mc_rows) as [[[name ps] sh]|]; reflexivity.
Qed.

Lemma mode_sound : forall tokens start off sz c s s' next m r b, 0 <= pc s -> 0 <= off -> size_ok sz \/ c = Ctl ->
  mc_mode tokens start off sz (black c) s = (s', Ok (next, m, r, b)) ->
  exists ts rest items ds, skipn start tokens = ts ++ rest /\ next = (start + length ts)%nat /\ ea false sz ts m r items /\
    allowed c m r /\ stored_items mc_p s (2 + off) items b ds /\ s' = referring s ds.
Proof.
  intros tokens start off sz c s s' next m r b PC OF SZ H. rewrite mode_eq in H.
  destruct (find (tries (skipn start tokens) (black c)) mc_rows) as [[[name ps] sh]|] eqn:F; [|discriminate].
  pose proof (find_some _ _ F) as [I T]. cbn [tries] in T. apply andb_prop in T. destruct T as [T NB]. apply negb_true_iff in NB.
  destruct (row_sound name ps sh sz (skipn start tokens) I T) as (ts & rest & m0 & r0 & items & S & L & E & B & CL).
  - intros ->. destruct (skipn start tokens) as [|t l] eqn:S; [exact Logic.I|]. intros x suf X.
    destruct (imatch1 (PFun mc_is_displacement) t) eqn:D.
    2:{ exfalso. unfold mc_rows in I. cbn [In] in I. repeat destruct I as [I|I]; try discriminate I; try (injection I as <- <-); try destruct I.
        apply match_cons in T. destruct T as (t' & l' & X1 & M & _). injection X1 as <- <-. congruence. }
    apply match_value in D.
    split; intros Y; exfalso.
    + assert (Q : In (name, ps, ShAlias) (firstn 13 mc_rows)).
      { apply (find_before _ (tries (t :: l) (black c)) (firstn 12 mc_rows) (#"(xxx).W", [PFun mc_is_absolute_w], ShAliasW) (skipn 13 mc_rows)); [exact F|].
        cbn [tries match_all]. replace (imatch1 (PFun mc_is_absolute_w) t) with true by (symmetry; apply match_abs_w; eauto). destruct c; reflexivity. }
      unfold mc_rows in Q. cbn [firstn In] in Q. repeat destruct Q as [Q|Q]; try discriminate Q; destruct Q.
    + assert (Q : In (name, ps, ShAlias) (firstn 14 mc_rows)).
      { apply (find_before _ (tries (t :: l) (black c)) (firstn 13 mc_rows) (#"(xxx).L", [PFun mc_is_absolute_l], ShAliasL) (skipn 14 mc_rows)); [exact F|].
        cbn [tries match_all]. replace (imatch1 (PFun mc_is_absolute_l) t) with true by (symmetry; apply match_abs_l; eauto). destruct c; reflexivity. }
      unfold mc_rows in Q. cbn [firstn In] in Q. repeat destruct Q as [Q|Q]; try discriminate Q; destruct Q.
  - destruct SZ as [SZ| ->]; [left; exact SZ|right]. intros ->. discriminate NB.
  - apply bind_ok in H. destruct H as (s1 & [[m1 r1] b1] & H & R). apply ret_ok in R. destruct R as [R ->]. injection R as -> -> -> ->.
    apply (B tokens start rest off s s1 m1 r1 b1 PC OF S) in H. destruct H as (-> & -> & ds & ST & ->).
    exists ts, rest, items, ds. rewrite L. auto 7.
Qed.

(** ** The manual's operands are found *)

Lemma a_not_d : forall t n, areg t n -> imatch1 (PTuple d_regs) t = false.
Proof.
  intros t n H. apply (not_true _ _ (match_d t)). intros (k & D). unfold areg, dreg in *.
  generalize dependent (lower t). intros u H D. cbn [In a_names d_names] in H, D.
  repeat destruct H as [H|H]; try (injection H as <- <-); try destruct H; repeat destruct D as [D|D]; try discriminate D; destruct D.
Qed.
Lemma reg_not_mark : forall t n c, areg t n \/ dreg t n -> t <> [c].
Proof. intros t n c H ->. assert (R : dreg [c] n \/ areg [c] n) by tauto. destruct (reg_shape _ _ R) as (x & y & E & _). discriminate. Qed.
Lemma d_yes : forall t n, dreg t n -> imatch1 (PTuple d_regs) t = true. Proof. intros; apply match_d; eauto. Qed.
Lemma a_yes : forall t n, areg t n -> imatch1 (PTuple a_regs) t = true. Proof. intros; apply match_a; eauto. Qed.
Lemma a_open : forall t n, areg t n -> imatch1 (PStr #"(") t = false.
Proof. intros t n H. apply (not_true _ _ (match_open t)). eapply reg_not_mark; eauto. Qed.
Lemma a_close : forall t n, areg t n -> imatch1 (PStr #")") t = false.
Proof. intros t n H. apply (not_true _ _ (match_close t)). eapply reg_not_mark; eauto. Qed.
Lemma a_minus : forall t n, areg t n -> imatch1 (PStr #"-") t = false.
Proof. intros t n H. apply (not_true _ _ (match_minus t)). eapply reg_not_mark; eauto. Qed.
Lemma a_value : forall t n, areg t n -> imatch1 (PFun mc_is_displacement) t = false.
Proof. intros t n H. apply (not_true _ _ (match_value t)). intros (_ & V & _). exact (V n H). Qed.
Lemma v_yes : forall x, value true x -> imatch1 (PFun mc_is_displacement) x = true.
Proof. intros x V. apply match_value. eapply value_lax; eauto. Qed.
Lemma v_d : forall x, value true x -> imatch1 (PTuple d_regs) x = false.
Proof. intros x V. apply (not_true _ _ (match_d x)). intros (n & D). exact (proj1 V n D). Qed.
Lemma v_a : forall x, value true x -> imatch1 (PTuple a_regs) x = false.
Proof. intros x V. apply (not_true _ _ (match_a x)). intros (n & D). exact (proj1 (proj2 V) n D). Qed.
Lemma v_open : forall x, value true x -> imatch1 (PStr #"(") x = false.
Proof. intros x V. apply (not_true _ _ (match_open x)). apply V. Qed.
Lemma v_close : forall x, value true x -> imatch1 (PStr #")") x = false.
Proof. intros x V. apply (not_true _ _ (match_close x)). apply V. Qed.
Lemma v_minus : forall x, value true x -> imatch1 (PStr #"-") x = false.
Proof. intros x V. apply (not_true _ _ (match_minus x)). apply V. reflexivity. Qed.
Lemma v_imm : forall x, value true x -> imatch1 (PFun mc_is_immediate) x = false.
Proof. intros x V. apply (not_true _ _ (match_imm x)). intros (y & E & _). destruct V as (_ & _ & _ & _ & V & _). exact (V y E). Qed.
Lemma pc_yes : forall t, the_pc true t -> imatch1 (PStr #"PC") t = true.
Proof. intros t H. apply match_pc. eapply pc_lax; eauto. Qed.
Lemma pc_lower : forall t, the_pc true t -> lower t = #"pc".
Proof. intros t [H|[H _]]; [exact H|discriminate]. Qed.
Lemma pc_a : forall t, the_pc true t -> imatch1 (PTuple a_regs) t = false.
Proof.
  intros t H. apply pc_lower in H. apply (not_true _ _ (match_a t)). intros (n & D). unfold areg in D. rewrite H in D.
  cbn [In a_names] in D. repeat destruct D as [D|D]; try discriminate D; destruct D.
Qed.
Lemma index_length : forall t w, index t w -> (2 <= length t)%nat.
Proof.
  intros t w H. assert (L : forall r n k, xreg r n k -> length r = 2%nat).
  { intros r n k X. assert (R : dreg r n \/ areg r n) by (destruct X as [[X _]|[X _]]; auto). destruct (reg_shape _ _ R) as (a & b & -> & _). reflexivity. }
  destruct H as [r n k suf X _|r n k suf X _|r n k X _]; apply L in X; rewrite ?app_length; lia.
Qed.
Lemma i_close : forall t w, index t w -> imatch1 (PStr #")") t = false.
Proof. intros t w H. apply (not_true _ _ (match_close t)). intros ->. apply index_length in H. cbn in H. lia. Qed.
Lemma i_yes : forall t w, index t w -> imatch1 (PFun mc_is_indexed_reg) t = true.
Proof. intros. apply index_match. eauto. Qed.
Lemma hash_d : forall x, imatch1 (PTuple d_regs) (#"#" ++ x) = false.
Proof.
  intros x. apply (not_true _ _ (match_d _)). intros (n & D). unfold dreg in D. cbn [app lower map list_ascii_of_string] in D.
  cbn [In d_names] in D. repeat destruct D as [D|D]; try discriminate D; destruct D.
Qed.
Lemma hash_a : forall x, imatch1 (PTuple a_regs) (#"#" ++ x) = false.
Proof.
  intros x. apply (not_true _ _ (match_a _)). intros (n & D). unfold areg in D. cbn [app lower map list_ascii_of_string] in D.
  cbn [In a_names] in D. repeat destruct D as [D|D]; try discriminate D; destruct D.
Qed.
Lemma hash_open : forall x, imatch1 (PStr #"(") (#"#" ++ x) = false.
Proof. intros x. apply (not_true _ _ (match_open _)). discriminate. Qed.
Lemma hash_minus : forall x, imatch1 (PStr #"-") (#"#" ++ x) = false.
Proof. intros x. apply (not_true _ _ (match_minus _)). discriminate. Qed.
Lemma hash_yes : forall x, x <> [] -> imatch1 (PFun mc_is_immediate) (#"#" ++ x) = true.
Proof. intros x N. apply match_imm. eauto. Qed.
Lemma w_yes : forall t, suffix true "w" t -> imatch1 (PStr #".W") t = true.
Proof. intros t H. apply match_w. eapply suffix_lax; eauto. Qed.
Lemma l_yes : forall t, suffix true "l" t -> imatch1 (PStr #".L") t = true.
Proof. intros t H. apply match_l. eapply suffix_lax; eauto. Qed.
Lemma l_not_w : forall t, suffix true "l" t -> imatch1 (PStr #".W") t = false.
Proof.
  intros t [H|[H _]]; [|discriminate]. apply (not_true _ _ (match_w t)).
  intros [E|[_ [E|E]]]; [rewrite H in E; discriminate|subst t; discriminate|rewrite H in E; discriminate].
Qed.
Lemma abs_w_yes : forall x suf, value true (x ++ suf) -> lower suf = #".w" -> imatch1 (PFun mc_is_absolute_w) (x ++ suf) = true.
Proof. intros x suf V E. apply match_abs_w. split; [eapply value_lax; eauto|eauto]. Qed.
Lemma abs_l_yes : forall x suf, value true (x ++ suf) -> lower suf = #".l" -> imatch1 (PFun mc_is_absolute_l) (x ++ suf) = true.
Proof. intros x suf V E. apply match_abs_l. split; [eapply value_lax; eauto|eauto]. Qed.
Lemma abs_l_not_w : forall x suf, lower suf = #".l" -> imatch1 (PFun mc_is_absolute_w) (x ++ suf) = false.
Proof.
  intros x suf E. cbn [imatch1]. unfold mc_is_absolute_w. change #".w" with ["."%char; "w"%char].
  rewrite (last_chr "l" "w" x suf E) by discriminate. apply andb_false_r.
Qed.
Lemma bare_w : forall x, no_size x -> imatch1 (PFun mc_is_absolute_w) x = false.
Proof. intros x N. apply (not_true _ _ (match_abs_w x)). intros (_ & y & suf & E & L). destruct (N y suf E) as [N1 N2]. auto. Qed.
Lemma bare_l : forall x, no_size x -> imatch1 (PFun mc_is_absolute_l) x = false.
Proof. intros x N. apply (not_true _ _ (match_abs_l x)). intros (_ & y & suf & E & L). destruct (N y suf E) as [N1 N2]. auto. Qed.

Definition no_plus (rest : list str) : Prop := match rest with t :: _ => t <> #"+" | [] => True end.

Ltac mark_facts := repeat match goal with
  | H : dreg ?t _ |- _ => lazymatch goal with K : imatch1 (PTuple d_regs) t = _ |- _ => fail | _ => pose proof (d_yes _ _ H) end
  | H : areg ?t _ |- _ => lazymatch goal with K : imatch1 (PTuple a_regs) t = true |- _ => fail | _ =>
      pose proof (a_yes _ _ H); pose proof (a_not_d _ _ H); pose proof (a_open _ _ H); pose proof (a_close _ _ H);
      pose proof (a_minus _ _ H); pose proof (a_value _ _ H) end
  | H : value true ?t |- _ => lazymatch goal with K : imatch1 (PTuple a_regs) t = false |- _ => fail | _ =>
      pose proof (v_yes _ H); pose proof (v_d _ H); pose proof (v_a _ H); pose proof (v_open _ H); pose proof (v_close _ H);
      pose proof (v_minus _ H); pose proof (v_imm _ H) end
  | H : the_pc true ?t |- _ => lazymatch goal with K : imatch1 (PTuple a_regs) t = false |- _ => fail | _ =>
      pose proof (pc_yes _ H); pose proof (pc_a _ H) end
  | H : index ?t _ |- _ => lazymatch goal with K : imatch1 (PStr #")") t = false |- _ => fail | _ =>
      pose proof (i_close _ _ H); pose proof (i_yes _ _ H) end
  end.
Ltac mark_step := match goal with
  | K : imatch1 ?p ?t = _ |- context [imatch1 ?p ?t] => rewrite K; cbn [andb]
  | |- context [imatch1 ?p #"("] => let v := eval vm_compute in (imatch1 p #"(") in change (imatch1 p #"(") with v; cbn [andb]
  | |- context [imatch1 ?p #")"] => let v := eval vm_compute in (imatch1 p #")") in change (imatch1 p #")") with v; cbn [andb]
  | |- context [imatch1 ?p #"+"] => let v := eval vm_compute in (imatch1 p #"+") in change (imatch1 p #"+") with v; cbn [andb]
  | |- context [imatch1 ?p #"-"] => let v := eval vm_compute in (imatch1 p #"-") in change (imatch1 p #"-") with v; cbn [andb]
  | |- context [str_in ?n (black ?c)] => let v := eval vm_compute in (str_in n (black c)) in change (str_in n (black c)) with v; cbn [andb negb]
  end.
Ltac finds := unfold mc_rows; cbn [find tries match_all app]; repeat mark_step; rewrite ?andb_false_r; cbn [andb].

Lemma row_complete : forall sz ts m r items c rest, ea true sz ts m r items -> allowed c m r -> size_ok sz \/ c = Ctl -> no_plus rest ->
  exists name ps sh, find (tries (ts ++ rest) (black c)) mc_rows = Some (name, ps, sh) /\ length ps = length ts /\ body_ok sz sh ts m r items.
Proof.
  intros sz ts m r items c rest E A SZ NP.
  assert (NP' : match rest with [] => True | y :: _ => imatch1 (PStr #"+") y = false end).
  { destruct rest as [|y l]; [exact Logic.I|]. apply (not_true _ _ (match_plus y)). exact NP. }
  destruct E; mark_facts.
  - exists #"Dn", [PTuple d_regs], (ShReg 0 0). split; [|split; [reflexivity|eapply reg_body; [reflexivity|apply reg_value; auto]]].
    destruct c; [| |exfalso; unfold allowed, control in A; lia]; finds; reflexivity.
  - exists #"An", [PTuple a_regs], (ShReg 1 0). split; [|split; [reflexivity|eapply reg_body; [reflexivity|apply reg_value; auto]]].
    destruct c; [|exfalso; unfold allowed, alterable in A; lia|exfalso; unfold allowed, control in A; lia]; finds; reflexivity.
  - eexists _, _, (ShReg 2 1). split; [|split; [|eapply (reg_body _ _ _ 1); [reflexivity|apply reg_value; auto]]].
    + destruct rest as [|y l]; destruct c; finds; reflexivity.
    + reflexivity.
  - eexists _, _, (ShReg 3 1). split; [|split; [|eapply (reg_body _ _ _ 1); [reflexivity|apply reg_value; auto]]].
    + destruct c; [| |exfalso; unfold allowed, control in A; lia]; finds; reflexivity.
    + reflexivity.
  - eexists _, _, (ShReg 4 2). split; [|split; [|eapply (reg_body _ _ _ 2); [reflexivity|apply reg_value; auto]]].
    + destruct c; [| |exfalso; unfold allowed, control in A; lia]; finds; reflexivity.
    + reflexivity.
  - eexists _, _, ShDisp. split; [|split; [|apply disp_body, reg_value; auto]].
    + destruct c; finds; reflexivity.
    + reflexivity.
  - eexists _, _, ShIndex. split; [|split; [|apply index_body; [apply reg_value; auto|assumption]]].
    + destruct c; finds; reflexivity.
    + reflexivity.
  - pose proof (w_yes _ H0). eexists _, _, ShAbsW. split; [|split; [|apply par_w_body]].
    + destruct c; finds; reflexivity.
    + reflexivity.
  - pose proof (l_yes _ H0). pose proof (l_not_w _ H0). eexists _, _, ShAbsL. split; [|split; [|apply par_l_body]].
    + destruct c; finds; reflexivity.
    + reflexivity.
  - pose proof (abs_w_yes _ _ H H0). eexists _, _, ShAliasW. split; [|split; [|apply alias_w_body; assumption]].
    + destruct c; finds; reflexivity.
    + reflexivity.
  - pose proof (abs_l_yes _ _ H H0). pose proof (abs_l_not_w x suf H0). eexists _, _, ShAliasL. split; [|split; [|apply alias_l_body; assumption]].
    + destruct c; finds; reflexivity.
    + reflexivity.
  - pose proof (bare_w _ H0). pose proof (bare_l _ H0). eexists _, _, ShAlias. split; [|split; [|apply alias_body]].
    + destruct c; finds; reflexivity.
    + reflexivity.
  - eexists _, _, ShPcDisp. split; [|split; [|apply pc_disp_body]].
    + destruct c; [|exfalso; unfold allowed, alterable in A; lia|]; finds; reflexivity.
    + reflexivity.
  - eexists _, _, ShPcIndex. split; [|split; [|apply pc_index_body; assumption]].
    + destruct c; [|exfalso; unfold allowed, alterable in A; lia|]; finds; reflexivity.
    + reflexivity.
  - pose proof (hash_d x). pose proof (hash_a x). pose proof (hash_open x). pose proof (hash_minus x). pose proof (hash_yes x H).
    eexists _, _, ShImm. split; [|split; [|apply imm_body; destruct SZ as [SZ| ->]; [exact SZ|exfalso; unfold allowed, control in A; lia]]].
    + destruct c; [|exfalso; unfold allowed, alterable in A; lia|exfalso; unfold allowed, control in A; lia].
      change (match_all imatch1) with (match_all imatch1). unfold mc_rows; cbn [find tries match_all]. 
      change ([#"#" ++ x] ++ rest) with ((#"#" ++ x) :: rest). cbn [match_all]. repeat mark_step; reflexivity.
    + reflexivity.
Qed.

Lemma mode_complete : forall tokens start off sz c s s' next m' r' b ts rest m r items, 0 <= pc s -> 0 <= off -> size_ok sz \/ c = Ctl ->
  skipn start tokens = ts ++ rest -> no_plus rest -> ea true sz ts m r items -> allowed c m r ->
  mc_mode tokens start off sz (black c) s = (s', Ok (next, m', r', b)) <->
  next = (start + length ts)%nat /\ m' = m /\ r' = r /\ exists ds, stored_items mc_p s (2 + off) items b ds /\ s' = referring s ds.
Proof.
  intros tokens start off sz c s s' next m' r' b ts rest m r items PC OF SZ S NP E A.
  destruct (row_complete sz ts m r items c rest E A SZ NP) as (name & ps & sh & F & L & B).
  rewrite mode_eq, S, F, bind_ok, L. split.
  - intros (s1 & [[m1 r1] b1] & H & R). apply ret_ok in R. destruct R as [R ->]. injection R as -> -> -> ->.
    apply (B tokens start rest off s s1 m1 r1 b1 PC OF S) in H. tauto.
  - intros (-> & -> & -> & ds & ST & ->). exists (referring s ds), (m, r, b). split; [|reflexivity].
    apply (B tokens start rest off s _ m r b PC OF S). eauto.
Qed.
