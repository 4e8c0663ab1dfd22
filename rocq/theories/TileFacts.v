(** Lemmas about the tile converters. *)
From Coq Require Import Lia.
From Verif Require Import Py PyFacts Utils Tokenizer State Assembler SpecUtils SpecExec SpecLink ExecFacts Platform SpecPlat.
Local Open Scope Z_scope.

Lemma range_in : forall n k, In k (py_range 0 n 1) <-> 0 <= k < n.
Proof.
  intros n k. unfold py_range. rewrite Z.div_1_r. replace (n - 0 + 1 - 1) with n by ring. rewrite in_map_iff. split.
  - intros (j & <- & I). apply in_seq in I. lia.
  - intros K. exists (Z.to_nat k). split; [lia|]. apply in_seq. lia.
Qed.
Lemma range_len : forall n, length (py_range 0 n 1) = Z.to_nat n.
Proof. intros n. unfold py_range. rewrite map_length, seq_length, Z.div_1_r. f_equal. ring. Qed.
Lemma range_nth : forall n k, 0 <= k < n -> nth_error (py_range 0 n 1) (Z.to_nat k) = Some k.
Proof.
  intros n k K. unfold py_range. rewrite Z.div_1_r. replace (n - 0 + 1 - 1) with n by ring.
  rewrite nth_error_map. rewrite (nth_error_nth' _ 0%nat) by (rewrite seq_length; lia).
  rewrite seq_nth by lia. cbn [option_map]. f_equal. lia.
Qed.

(** ** One row *)

Section Cell.
  Context (img : image) (limit : Z) (planes : list (Z -> Z)) (cx cy : Z).
  Definition px (x y : Z) : Z := img_pixel img (cx * 8 + x) (cy * 8 + y).
  Definition fine_px (x y : Z) : bool := (0 <=? px x y) && (px x y <=? limit).
  Definition plane_byte (f : Z -> Z) (y : Z) : Z :=
    fold_left (fun b x => Z.lor b (Z.shiftl (f (px x y)) (7 - x))) (py_range 0 8 1) 0.

  Lemma row_fold : forall y xs g,
    fold_res (fun row x =>
      let v := img_pixel img (cx * 8 + x) (cy * 8 + y) in
      if negb ((0 <=? v) && (v <=? limit)) then Err (AExc InvalidPaletteEntry)
      else Ok (map (fun '(b, f) => Z.lor b (Z.shiftl (f v) (7 - x))) (combine row planes))) xs (map g planes) =
    if forallb (fun x => fine_px x y) xs then
      Ok (map (fun f => fold_left (fun b x => Z.lor b (Z.shiftl (f (px x y)) (7 - x))) xs (g f)) planes)
    else Err (AExc InvalidPaletteEntry).
  Proof.
    intros y xs. induction xs as [|x xs IH]; intros g; [reflexivity|].
    cbn [fold_res forallb fold_left]. fold (px x y). unfold fine_px at 1. destruct (_ && _); [|reflexivity].
    cbn [negb andb rbind].
    replace (map (fun '(b, f) => Z.lor b (Z.shiftl (f (px x y)) (7 - x))) (combine (map g planes) planes))
      with (map (fun f => Z.lor (g f) (Z.shiftl (f (px x y)) (7 - x))) planes).
    - apply IH.
    - clear. induction planes as [|f l IH]; [reflexivity|]. cbn [map combine]. rewrite IH. reflexivity.
  Qed.
  Lemma cell_row_eq : forall y, cell_row img limit planes cx cy y =
    if forallb (fun x => fine_px x y) (py_range 0 8 1) then Ok (map (fun f => plane_byte f y) planes)
    else Err (AExc InvalidPaletteEntry).
  Proof. intros y. unfold cell_row. apply (row_fold y (py_range 0 8 1) (fun _ => 0)). Qed.

  Lemma cell_rows_eq : cell_rows img limit planes cx cy =
    if forallb (fun y => forallb (fun x => fine_px x y) (py_range 0 8 1)) (py_range 0 8 1)
    then Ok (map (fun y => map (fun f => plane_byte f y) planes) (py_range 0 8 1))
    else Err (AExc InvalidPaletteEntry).
  Proof.
    unfold cell_rows.
    assert (X : forall ys acc,
      fold_res (fun rows y => let? row := cell_row img limit planes cx cy y in Ok (rows ++ [row])) ys acc =
      if forallb (fun y => forallb (fun x => fine_px x y) (py_range 0 8 1)) ys
      then Ok (acc ++ map (fun y => map (fun f => plane_byte f y) planes) ys) else Err (AExc InvalidPaletteEntry)).
    { induction ys as [|y ys IH]; intros acc; [cbn; rewrite app_nil_r; reflexivity|].
      cbn [fold_res forallb map]. rewrite cell_row_eq. destruct (forallb _ (py_range 0 8 1)) eqn:F; [|reflexivity].
      cbn [rbind andb]. rewrite IH. destruct (forallb _ ys); [|reflexivity]. rewrite <- app_assoc. reflexivity. }
    apply X.
  Qed.
End Cell.

(** Eight bits in a byte. *)
Lemma eight : forall (t : Z -> bool) x, 0 <= x < 8 ->
  let b := fold_left (fun b x => Z.lor b (Z.shiftl (Z.b2z (t x)) (7 - x))) (py_range 0 8 1) 0 in
  0 <= b < 256 /\ bit_of b x = Z.b2z (t x).
Proof.
  intros t x X. cbv zeta. change (py_range 0 8 1) with [0; 1; 2; 3; 4; 5; 6; 7]. cbn [fold_left].
  assert (K : forall b0 b1 b2 b3 b4 b5 b6 b7 : bool,
    let b := Z.lor (Z.lor (Z.lor (Z.lor (Z.lor (Z.lor (Z.lor (Z.lor 0 (Z.shiftl (Z.b2z b0) 7)) (Z.shiftl (Z.b2z b1) 6))
       (Z.shiftl (Z.b2z b2) 5)) (Z.shiftl (Z.b2z b3) 4)) (Z.shiftl (Z.b2z b4) 3)) (Z.shiftl (Z.b2z b5) 2))
       (Z.shiftl (Z.b2z b6) 1)) (Z.shiftl (Z.b2z b7) 0) in
    ((0 <=? b) && (b <? 256)) = true /\
    map (bit_of b) [0; 1; 2; 3; 4; 5; 6; 7] = map Z.b2z [b0; b1; b2; b3; b4; b5; b6; b7]).
  { intros b0 b1 b2 b3 b4 b5 b6 b7. destruct b0, b1, b2, b3, b4, b5, b6, b7; split; vm_compute; reflexivity. }
  destruct (K (t 0) (t 1) (t 2) (t 3) (t 4) (t 5) (t 6) (t 7)) as [A B]. cbv zeta in A, B.
  change (7 - 0) with 7. change (7 - 1) with 6. change (7 - 2) with 5. change (7 - 3) with 4. change (7 - 4) with 3.
  change (7 - 5) with 2. change (7 - 6) with 1. change (7 - 7) with 0.
  match type of A with context [0 <=? ?v] => set (w := v) in * end.
  apply andb_prop in A. destruct A as [A1 A2]. apply Z.leb_le in A1. apply Z.ltb_lt in A2. split; [lia|].
  cbn [map] in B. injection B as B0 B1 B2 B3 B4 B5 B6 B7.
  assert (Q : x = 0 \/ x = 1 \/ x = 2 \/ x = 3 \/ x = 4 \/ x = 5 \/ x = 6 \/ x = 7) by lia.
  destruct Q as [->|[->|[->|[->|[->|[->|[->| ->]]]]]]]; assumption.
Qed.

Lemma plane_bits : forall img cx cy f y x, (forall x, 0 <= x < 8 -> f (px img cx cy x y) = 0 \/ f (px img cx cy x y) = 1) -> 0 <= x < 8 ->
  0 <= plane_byte img cx cy f y < 256 /\ bit_of (plane_byte img cx cy f y) x = f (px img cx cy x y).
Proof.
  intros img cx cy f y x H X.
  assert (E : forall xs, (forall x, In x xs -> 0 <= x < 8) -> forall b0,
    fold_left (fun b x => Z.lor b (Z.shiftl (f (px img cx cy x y)) (7 - x))) xs b0 =
    fold_left (fun b x => Z.lor b (Z.shiftl (Z.b2z (f (px img cx cy x y) =? 1)) (7 - x))) xs b0).
  { induction xs as [|z xs IH]; intros I b0; [reflexivity|]. cbn [fold_left]. rewrite IH by (intros; apply I; right; auto).
    f_equal. f_equal. f_equal. destruct (H z) as [-> | ->]; [apply I; left; auto| |]; reflexivity. }
  unfold plane_byte. rewrite E by (intros z Z; apply range_in in Z; auto).
  destruct (eight (fun x => f (px img cx cy x y) =? 1) x X) as [A B]. split; [exact A|]. rewrite B.
  destruct (H x X) as [-> | ->]; reflexivity.
Qed.

(** ** The cells of a picture *)

Lemma iter_both : forall A (f : A -> M unit) l1 l2 s, iter f (l1 ++ l2) s = bind (iter f l1) (fun _ => iter f l2) s.
Proof.
  intros A f l1 l2. induction l1 as [|a l1 IH]; intros s; [reflexivity|]. cbn [app iter]. unfold bind at 1 2.
  unfold bind at 1. destruct (f a s) as [s1 [[]|]]; [rewrite IH|]; reflexivity.
Qed.
Lemma stringify_operand : forall t name, string_operand t name -> stringify t = Ok name.
Proof.
  intros nm name SO. destruct SO as [q t Q|x t Q1 Q2]; unfold stringify, is_quoted, rbind.
  - replace (Ascii.eqb q dquote || Ascii.eqb q squote) with true by (destruct Q as [-> | ->]; reflexivity).
    f_equal. apply inner_quoted.
  - apply Ascii.eqb_neq in Q1, Q2. rewrite Q1, Q2. reflexivity.
Qed.
Lemma same_length : forall A B (R : A -> B -> Prop) l1 l2, Forall2 R l1 l2 -> length l1 = length l2.
Proof. intros A B R l1 l2 F. induction F; cbn; auto. Qed.

Lemma iter_pairs : forall A B (g : A -> B -> M unit) xs ys s,
  iter (fun y => iter (g y) xs) ys s = iter (fun p => g (fst p) (snd p)) (list_prod ys xs) s.
Proof.
  intros A B g xs ys. induction ys as [|y ys IH]; intros s; [reflexivity|]. cbn [iter list_prod].
  rewrite iter_both. unfold bind.
  assert (E : forall l s, iter (fun p => g (fst p) (snd p)) (map (fun x => (y, x)) l) s = iter (g y) l s).
  { induction l as [|x l IL]; intros s1; [reflexivity|]. cbn [map iter fst snd]. unfold bind. destruct (g y x s1) as [s2 [[]|]]; auto. }
  rewrite E. destruct (iter (g y) xs s) as [s1 [[]|]]; auto.
Qed.

Lemma iter_emit : forall A (f : A -> res bytes) l s s',
  iter (fun a => let! b := lift (f a) in append_assembled_bytes b) l s = (s', Ok tt) <->
  exists bs, Forall2 (fun a b => f a = Ok b) l bs /\ emitted s (concat bs) s'.
Proof.
  intros A f l. induction l as [|a l IH]; intros s s'; cbn [iter].
  - split.
    + intros H. injection H as <-. exists []. split; [constructor|]. unfold emitted. cbn. rewrite app_nil_r, Z.add_0_r. destruct s; reflexivity.
    + intros (bs & F & E). inversion F; subst. unfold emitted in E. cbn in E. rewrite app_nil_r, Z.add_0_r in E. subst. destruct s; reflexivity.
  - unfold bind at 1. unfold bind at 1, lift. destruct (f a) as [b|e] eqn:FA.
    + unfold append_assembled_bytes, modify. cbv beta. rewrite IH. split.
      * intros (bs & F & E). exists (b :: bs). split; [constructor; auto|]. unfold emitted in *. rewrite E. cbn [concat assembled set_counter set_assembled org_counter].
        rewrite zlen_app, app_assoc, Z.add_assoc. reflexivity.
      * intros (bs & F & E). inversion F as [|? b' ? bs' FA' F']; subst. rewrite FA in FA'. injection FA' as <-. exists bs'. split; [auto|].
        unfold emitted in *. rewrite E. cbn [concat assembled set_counter set_assembled org_counter].
        rewrite zlen_app, app_assoc, Z.add_assoc. reflexivity.
    + split; [discriminate|]. intros (bs & F & E). inversion F; subst. congruence.
Qed.

Lemma prod_nth : forall A B (ys : list A) (xs : list B) i j y x, nth_error ys i = Some y -> nth_error xs j = Some x ->
  nth_error (list_prod ys xs) (i * length xs + j) = Some (y, x).
Proof.
  intros A B ys xs. induction ys as [|y0 ys IH]; intros i j y x Y X; [destruct i; discriminate|].
  assert (J : (j < length xs)%nat) by (apply nth_error_Some; congruence).
  cbn [list_prod]. destruct i as [|i]; cbn [nth_error] in Y.
  - injection Y as ->. cbn [Nat.mul Nat.add]. rewrite nth_error_app1 by (rewrite map_length; auto). rewrite nth_error_map, X. reflexivity.
  - rewrite nth_error_app2 by (rewrite map_length; lia). rewrite map_length.
    replace (S i * length xs + j - length xs)%nat with (i * length xs + j)%nat by lia. auto.
Qed.
Lemma forall2_nth : forall A B (R : A -> B -> Prop) l l' k a, Forall2 R l l' -> nth_error l k = Some a ->
  exists b, nth_error l' k = Some b /\ R a b.
Proof.
  intros A B R l l' k a F. revert k. induction F; intros k HK; [destruct k; discriminate|].
  destruct k; [injection HK as <-; eexists; split; [reflexivity|auto]|]. apply IHF. exact HK.
Qed.
Lemma concat_slice : forall (size : Z) (bs : list bytes) k b, 0 <= size -> Forall (fun b => zlen b = size) bs -> nth_error bs k = Some b ->
  slice (size * Z.of_nat k) size (concat bs) = b.
Proof.
  intros size bs k b S0 F. revert k. induction F as [|c bs L F IH]; intros k H; [destruct k; discriminate|].
  destruct k as [|k]; cbn [nth_error concat] in *.
  - injection H as ->. unfold slice. replace (Z.to_nat (size * Z.of_nat 0)) with 0%nat by lia. cbn [skipn].
    rewrite firstn_app. replace (Z.to_nat size) with (length b) by (unfold zlen in L; lia).
    rewrite firstn_all, Nat.sub_diag, firstn_O, app_nil_r. reflexivity.
  - rewrite <- (IH k H). unfold slice. rewrite skipn_app.
    rewrite (skipn_all2 c) by (unfold zlen in L; lia). cbn [app]. do 2 f_equal. unfold zlen in L. lia.
Qed.
Lemma concat_size : forall (size : Z) (bs : list bytes), Forall (fun b => zlen b = size) bs -> zlen (concat bs) = size * zlen bs.
Proof.
  intros size bs F. induction F as [|c bs L F IH]; [unfold zlen; cbn; lia|]. cbn [concat]. rewrite zlen_app, zlen_cons, IH, L. ring.
Qed.

(** A converter of cells that is right gives a picture that is right. *)
Section Convert.
  Context (e : env) (size_ok : Z -> Z -> bool) (convert : image -> Z -> Z -> res bytes)
    (pixel : bytes -> Z -> Z -> Z) (size limit : Z).
  Context (S0 : 0 <= size)
    (SIZE : forall w h, size_ok w h = true -> w mod 8 = 0 /\ h mod 8 = 0)
    (RIGHT : forall img cx cy b, convert img cx cy = Ok b -> zlen b = size /\
       forall x y, 0 <= x < 8 -> 0 <= y < 8 ->
         pixel b x y = img_pixel img (cx * 8 + x) (cy * 8 + y) /\ 0 <= img_pixel img (cx * 8 + x) (cy * 8 + y) <= limit)
    (OKAY : forall img cx cy, (forall x y, 0 <= x < 8 -> 0 <= y < 8 -> 0 <= img_pixel img (cx * 8 + x) (cy * 8 + y) <= limit) ->
       exists b, convert img cx cy = Ok b).

  Lemma tiles_right : forall t0 t name img s s', string_operand t name -> file_image e name = Some img ->
    0 <= img_width img -> 0 <= img_height img ->
    directive_tiles e size_ok convert [t0; t] s = (s', Ok tt) ->
    img_indexed img = true /\ size_ok (img_width img) (img_height img) = true /\ colours limit img /\
    exists b, shows pixel size img b /\ emitted s b s'.
  Proof.
    intros t0 t name img s s' SO FI W0 H0 H. unfold directive_tiles in H. cbn [len_in existsb length Nat.eqb orb negb tok_at nth_error] in H.
    unfold bind at 1, ret at 1 in H. cbv beta iota in H.
    unfold bind at 1, lift at 1 in H. rewrite (stringify_operand _ _ SO) in H. unfold bind at 1, open_file at 1 in H. rewrite FI in H. unfold ret at 1 in H. cbv beta iota in H.
    destruct (img_indexed img); [|discriminate]. destruct (size_ok _ _) eqn:SZ; [|discriminate]. cbn [negb] in H.
    split; [reflexivity|]. split; [reflexivity|]. destruct (SIZE _ _ SZ) as [MW MH].
    rewrite (iter_pairs _ _ (fun cy cx => let! blob := lift (convert img cx cy) in append_assembled_bytes blob)) in H.
    apply (iter_emit _ (fun p => convert img (snd p) (fst p))) in H. destruct H as (bs & F & E).
    set (W := img_width img / 8) in *. set (Hh := img_height img / 8) in *.
    assert (DW : img_width img = 8 * W) by (unfold W; rewrite (Z.div_mod (img_width img) 8) at 1 by lia; lia).
    assert (DH : img_height img = 8 * Hh) by (unfold Hh; rewrite (Z.div_mod (img_height img) 8) at 1 by lia; lia).
    assert (SZS : Forall (fun b => zlen b = size) bs).
    { clear - F RIGHT. induction F; constructor; auto. apply RIGHT in H. apply H. }
    assert (LEN : zlen bs = Hh * W).
    { unfold zlen. rewrite <- (same_length _ _ _ _ _ F). rewrite prod_length, !range_len. rewrite Nat2Z.inj_mul. lia. }
    assert (CELL : forall x y, 0 <= x < img_width img -> 0 <= y < img_height img -> exists b,
      slice (size * ((y / 8) * W + x / 8)) size (concat bs) = b /\ convert img (x / 8) (y / 8) = Ok b).
    { intros x y X Y.
      assert (QX : 0 <= x / 8 < W) by (split; [apply Z.div_pos; lia|apply Z.div_lt_upper_bound; lia]).
      assert (QY : 0 <= y / 8 < Hh) by (split; [apply Z.div_pos; lia|apply Z.div_lt_upper_bound; lia]).
      pose proof (prod_nth _ _ _ _ _ _ _ _ (range_nth Hh _ QY) (range_nth W _ QX)) as PN. rewrite range_len in PN.
      destruct (forall2_nth _ _ _ _ _ _ _ F PN) as (b & NB & C). cbn [fst snd] in C. exists b. split; [|exact C].
      rewrite <- (concat_slice size bs _ b S0 SZS NB). f_equal. rewrite Nat2Z.inj_add, Nat2Z.inj_mul, !Z2Nat.id by lia. reflexivity. }
    assert (RD : forall x, 0 <= x mod 8 < 8) by (intros; apply Z.mod_pos_bound; lia).
    assert (RE : forall x, x / 8 * 8 + x mod 8 = x) by (intros x; rewrite (Z.div_mod x 8) at 3 by lia; lia).
    split; [|exists (concat bs); split; [split|exact E]].
    - intros x y X Y. destruct (CELL x y X Y) as (b & _ & C). apply RIGHT in C. destruct C as [_ C].
      destruct (C (x mod 8) (y mod 8) (RD x) (RD y)) as [_ K]. rewrite !RE in K. exact K.
    - rewrite (concat_size size) by exact SZS. fold W Hh. rewrite LEN. ring.
    - intros x y X Y. fold W. destruct (CELL x y X Y) as (b & -> & C). apply RIGHT in C. destruct C as [_ C].
      destruct (C (x mod 8) (y mod 8) (RD x) (RD y)) as [K _]. rewrite !RE in K. exact K.
  Qed.

  Lemma tiles_okay : forall t0 t name img s, string_operand t name -> file_image e name = Some img ->
    img_indexed img = true -> size_ok (img_width img) (img_height img) = true -> colours limit img ->
    exists s', directive_tiles e size_ok convert [t0; t] s = (s', Ok tt).
  Proof.
    intros t0 t name img s SO FI IX SZ CO. unfold directive_tiles. cbn [len_in existsb length Nat.eqb orb negb tok_at nth_error].
    unfold bind at 1, ret at 1. cbv beta iota.
    unfold bind at 1, lift at 1. rewrite (stringify_operand _ _ SO). unfold bind at 1, open_file at 1. rewrite FI. unfold ret at 1. cbv beta iota.
    rewrite IX, SZ. cbn [negb].
    rewrite (iter_pairs _ _ (fun cy cx => let! blob := lift (convert img cx cy) in append_assembled_bytes blob)).
    destruct (SIZE _ _ SZ) as [MW MH].
    set (W := img_width img / 8) in *. set (Hh := img_height img / 8) in *.
    assert (DW : img_width img = 8 * W) by (unfold W; rewrite (Z.div_mod (img_width img) 8) at 1 by lia; lia).
    assert (DH : img_height img = 8 * Hh) by (unfold Hh; rewrite (Z.div_mod (img_height img) 8) at 1 by lia; lia).
    assert (X : exists bs, Forall2 (fun p b => convert img (snd p) (fst p) = Ok b) (list_prod (py_range 0 Hh 1) (py_range 0 W 1)) bs).
    { assert (Y : Forall (fun p => exists b, convert img (snd p) (fst p) = Ok b) (list_prod (py_range 0 Hh 1) (py_range 0 W 1))).
      { apply Forall_forall. intros [cy cx] I. apply in_prod_iff in I. destruct I as [I1 I2]. apply range_in in I1, I2. cbn [fst snd].
        apply OKAY. intros x y PX PY. apply CO; lia. }
      clear - Y. induction Y as [|p l (b & B) Y (bs & IH)]; [exists []; constructor|]. exists (b :: bs). constructor; auto. }
    destruct X as (bs & F). eexists. apply (iter_emit _ (fun p => convert img (snd p) (fst p))). exists bs. split; [exact F|reflexivity].
  Qed.
End Convert.

(** ** The three converters *)

Lemma range_forall : forall n f, forallb f (py_range 0 n 1) = true <-> forall x, 0 <= x < n -> f x = true.
Proof.
  intros n f. rewrite forallb_forall. split; intros H x X; apply H; [apply range_in|apply range_in in X]; auto.
Qed.
Lemma cell_inv : forall img limit planes cx cy rows, cell_rows img limit planes cx cy = Ok rows ->
  rows = map (fun y => map (fun f => plane_byte img cx cy f y) planes) (py_range 0 8 1) /\
  forall x y, 0 <= x < 8 -> 0 <= y < 8 -> 0 <= px img cx cy x y <= limit.
Proof.
  intros img limit planes cx cy rows H. rewrite cell_rows_eq in H. destruct (forallb _ _) eqn:F; [|discriminate].
  injection H as <-. split; [reflexivity|]. intros x y X Y. rewrite range_forall in F. specialize (F y Y). cbv beta in F.
  rewrite range_forall in F. specialize (F x X). unfold fine_px in F. apply andb_prop in F. destruct F as [F1 F2].
  apply Z.leb_le in F1, F2. lia.
Qed.
Lemma cell_fine : forall img limit planes cx cy, (forall x y, 0 <= x < 8 -> 0 <= y < 8 -> 0 <= px img cx cy x y <= limit) ->
  cell_rows img limit planes cx cy = Ok (map (fun y => map (fun f => plane_byte img cx cy f y) planes) (py_range 0 8 1)).
Proof.
  intros img limit planes cx cy H. rewrite cell_rows_eq. replace (forallb _ _) with true; [reflexivity|]. symmetry.
  apply range_forall. intros y Y. apply range_forall. intros x X. unfold fine_px. specialize (H x y X Y).
  apply andb_true_intro. split; apply Z.leb_le; lia.
Qed.
Lemma two_bits : forall v, 0 <= v <= 3 -> (Z.land v 1 = 0 \/ Z.land v 1 = 1) /\ (Z.shiftr v 1 = 0 \/ Z.shiftr v 1 = 1) /\
  Z.land v 1 + 2 * Z.shiftr v 1 = v.
Proof.
  intros v V. assert (Q : v = 0 \/ v = 1 \/ v = 2 \/ v = 3) by lia.
  destruct Q as [->|[->|[->| ->]]]; cbn; auto.
Qed.
Lemma four_bits : forall v, 0 <= v <= 15 ->
  (Z.land v 1 = 0 \/ Z.land v 1 = 1) /\ (Z.land (Z.shiftr v 1) 1 = 0 \/ Z.land (Z.shiftr v 1) 1 = 1) /\
  (Z.land (Z.shiftr v 2) 1 = 0 \/ Z.land (Z.shiftr v 2) 1 = 1) /\ (Z.land (Z.shiftr v 3) 1 = 0 \/ Z.land (Z.shiftr v 3) 1 = 1) /\
  Z.land v 1 + 2 * Z.land (Z.shiftr v 1) 1 + 4 * Z.land (Z.shiftr v 2) 1 + 8 * Z.land (Z.shiftr v 3) 1 = v.
Proof.
  intros v V. assert (Q : In v (py_range 0 16 1)) by (apply range_in; lia). clear V. revert v Q. apply Forall_forall.
  change (py_range 0 16 1) with [0; 1; 2; 3; 4; 5; 6; 7; 8; 9; 10; 11; 12; 13; 14; 15].
  repeat (constructor; [cbn; auto 10|]). constructor.
Qed.

Lemma blob_inv : forall l b, blob_of l = Ok b -> b = l.
Proof. intros l b. unfold blob_of. destruct (forallb _ _); congruence. Qed.
Lemma blob_fine : forall l, Forall (fun b => 0 <= b < 256) l -> blob_of l = Ok l.
Proof.
  intros l F. unfold blob_of. replace (forallb _ l) with true; [reflexivity|]. symmetry. apply forallb_forall. intros b I.
  rewrite Forall_forall in F. specialize (F b I). apply andb_true_intro. split; [apply Z.leb_le|apply Z.ltb_lt]; lia.
Qed.
Lemma eight_rows : forall y, 0 <= y < 8 -> y = 0 \/ y = 1 \/ y = 2 \/ y = 3 \/ y = 4 \/ y = 5 \/ y = 6 \/ y = 7.
Proof. lia. Qed.

Section Two.
  Context (img : image) (cx cy : Z) (H : forall x y, 0 <= x < 8 -> 0 <= y < 8 -> 0 <= px img cx cy x y <= 3).
  Lemma two_low : forall x y, 0 <= x < 8 -> 0 <= y < 8 -> let b := plane_byte img cx cy (fun v => Z.land v 1) y in
    0 <= b < 256 /\ bit_of b x = Z.land (px img cx cy x y) 1.
  Proof. intros x y X Y. apply (plane_bits _ _ _ (fun v => Z.land v 1)); [|exact X]. intros z Z. apply two_bits. auto. Qed.
  Lemma two_high : forall x y, 0 <= x < 8 -> 0 <= y < 8 -> let b := plane_byte img cx cy (fun v => Z.shiftr v 1) y in
    0 <= b < 256 /\ bit_of b x = Z.shiftr (px img cx cy x y) 1.
  Proof. intros x y X Y. apply (plane_bits _ _ _ (fun v => Z.shiftr v 1)); [|exact X]. intros z Z. apply two_bits. auto. Qed.
  Lemma two_pixel : forall x y, 0 <= x < 8 -> 0 <= y < 8 ->
    bit_of (plane_byte img cx cy (fun v => Z.land v 1) y) x + 2 * bit_of (plane_byte img cx cy (fun v => Z.shiftr v 1) y) x =
    px img cx cy x y.
  Proof.
    intros x y X Y. rewrite (proj2 (two_low x y X Y)), (proj2 (two_high x y X Y)). apply two_bits. auto.
  Qed.
End Two.

Ltac rows8 := change (py_range 0 8 1) with [0; 1; 2; 3; 4; 5; 6; 7]; cbn [map concat app planes2 planes4 nth].

Lemma gb_right : forall img cx cy b, tiles_by_row img 3 planes2 cx cy = Ok b -> zlen b = 16 /\
  forall x y, 0 <= x < 8 -> 0 <= y < 8 -> gb_pixel b x y = img_pixel img (cx * 8 + x) (cy * 8 + y) /\
    0 <= img_pixel img (cx * 8 + x) (cy * 8 + y) <= 3.
Proof.
  intros img cx cy b T. unfold tiles_by_row in T. destruct (cell_rows _ _ _ _ _) as [rows|] eqn:C; [|discriminate]. cbn [rbind] in T.
  apply cell_inv in C. destruct C as [-> C]. apply blob_inv in T. revert T. rows8. intros ->. split; [reflexivity|].
  intros x y X Y. split; [|apply C; auto]. fold (px img cx cy x y). rewrite <- (two_pixel img cx cy C x y X Y). unfold gb_pixel.
  destruct (eight_rows y Y) as [->|[->|[->|[->|[->|[->|[->| ->]]]]]]]; reflexivity.
Qed.
Lemma gb_okay : forall img cx cy, (forall x y, 0 <= x < 8 -> 0 <= y < 8 -> 0 <= img_pixel img (cx * 8 + x) (cy * 8 + y) <= 3) ->
  exists b, tiles_by_row img 3 planes2 cx cy = Ok b.
Proof.
  intros img cx cy C. unfold tiles_by_row. rewrite cell_fine by exact C. cbn [rbind].
  eexists. apply blob_fine. apply Forall_forall. intros b I. apply in_concat in I. destruct I as (row & I & B).
  apply in_map_iff in I. destruct I as (y & <- & Y). apply range_in in Y. apply in_map_iff in B. destruct B as (f & <- & F).
  destruct F as [<-|[<-|[]]]; [apply (two_low img cx cy C 0 y)|apply (two_high img cx cy C 0 y)]; lia.
Qed.
Lemma nes_right : forall img cx cy b, tiles_by_plane img 3 planes2 cx cy = Ok b -> zlen b = 16 /\
  forall x y, 0 <= x < 8 -> 0 <= y < 8 -> nes_pixel b x y = img_pixel img (cx * 8 + x) (cy * 8 + y) /\
    0 <= img_pixel img (cx * 8 + x) (cy * 8 + y) <= 3.
Proof.
  intros img cx cy b T. unfold tiles_by_plane in T. destruct (cell_rows _ _ _ _ _) as [rows|] eqn:C; [|discriminate]. cbn [rbind] in T.
  apply cell_inv in C. destruct C as [-> C]. apply blob_inv in T. revert T. rows8. intros ->. split; [reflexivity|].
  intros x y X Y. split; [|apply C; auto]. fold (px img cx cy x y). rewrite <- (two_pixel img cx cy C x y X Y). unfold nes_pixel.
  destruct (eight_rows y Y) as [->|[->|[->|[->|[->|[->|[->| ->]]]]]]]; reflexivity.
Qed.
Lemma nes_okay : forall img cx cy, (forall x y, 0 <= x < 8 -> 0 <= y < 8 -> 0 <= img_pixel img (cx * 8 + x) (cy * 8 + y) <= 3) ->
  exists b, tiles_by_plane img 3 planes2 cx cy = Ok b.
Proof.
  intros img cx cy C. unfold tiles_by_plane. rewrite cell_fine by exact C. cbn [rbind]. rewrite !map_map.
  eexists. apply blob_fine. apply Forall_forall. intros b I.
  apply in_app_iff in I. destruct I as [I|I]; apply in_map_iff in I; destruct I as (y & <- & Y); apply range_in in Y; cbn [planes2 map nth];
    [apply (two_low img cx cy C 0 y)|apply (two_high img cx cy C 0 y)]; lia.
Qed.

Section Four.
  Context (img : image) (cx cy : Z) (H : forall x y, 0 <= x < 8 -> 0 <= y < 8 -> 0 <= px img cx cy x y <= 15).
  Lemma four_plane : forall f, In f planes4 -> forall x y, 0 <= x < 8 -> 0 <= y < 8 ->
    0 <= plane_byte img cx cy f y < 256 /\ bit_of (plane_byte img cx cy f y) x = f (px img cx cy x y).
  Proof.
    intros f F x y X Y. apply plane_bits; [|exact X]. intros z Z. specialize (H z y Z Y). apply four_bits in H.
    destruct H as (A & B & C & D & _). destruct F as [<-|[<-|[<-|[<-|[]]]]]; assumption.
  Qed.
End Four.
Lemma sms_right : forall img cx cy b, tiles_by_row img 15 planes4 cx cy = Ok b -> zlen b = 32 /\
  forall x y, 0 <= x < 8 -> 0 <= y < 8 -> sms_pixel b x y = img_pixel img (cx * 8 + x) (cy * 8 + y) /\
    0 <= img_pixel img (cx * 8 + x) (cy * 8 + y) <= 15.
Proof.
  intros img cx cy b T. unfold tiles_by_row in T. destruct (cell_rows _ _ _ _ _) as [rows|] eqn:C; [|discriminate]. cbn [rbind] in T.
  apply cell_inv in C. destruct C as [-> C]. apply blob_inv in T. revert T. rows8. intros ->. split; [reflexivity|].
  intros x y X Y. split; [|apply C; auto]. fold (px img cx cy x y).
  destruct (four_bits _ (C x y X Y)) as (_ & _ & _ & _ & E). rewrite <- E.
  rewrite <- (proj2 (four_plane img cx cy C (fun v => Z.land v 1) ltac:(left; reflexivity) x y X Y)).
  rewrite <- (proj2 (four_plane img cx cy C (fun v => Z.land (Z.shiftr v 1) 1) ltac:(right; left; reflexivity) x y X Y)).
  rewrite <- (proj2 (four_plane img cx cy C (fun v => Z.land (Z.shiftr v 2) 1) ltac:(right; right; left; reflexivity) x y X Y)).
  rewrite <- (proj2 (four_plane img cx cy C (fun v => Z.land (Z.shiftr v 3) 1) ltac:(right; right; right; left; reflexivity) x y X Y)).
  unfold sms_pixel.
  destruct (eight_rows y Y) as [->|[->|[->|[->|[->|[->|[->| ->]]]]]]]; reflexivity.
Qed.
Lemma sms_okay : forall img cx cy, (forall x y, 0 <= x < 8 -> 0 <= y < 8 -> 0 <= img_pixel img (cx * 8 + x) (cy * 8 + y) <= 15) ->
  exists b, tiles_by_row img 15 planes4 cx cy = Ok b.
Proof.
  intros img cx cy C. unfold tiles_by_row. rewrite cell_fine by exact C. cbn [rbind].
  eexists. apply blob_fine. apply Forall_forall. intros b I. apply in_concat in I. destruct I as (row & I & B).
  apply in_map_iff in I. destruct I as (y & <- & Y). apply range_in in Y. apply in_map_iff in B. destruct B as (f & <- & F).
  apply (four_plane img cx cy C f F 0 y); lia.
Qed.
