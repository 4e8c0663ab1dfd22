(** Lemmas about the platform modules. *)
From Coq Require Import Lia.
From Verif Require WordFacts.
From Verif Require Import PropsUtils PropsData Py PyFacts Utils State Assembler SpecUtils SpecExec SpecLink ExecFacts LinkFacts Platform SpecPlat.
Local Open Scope Z_scope.

(** ** Loops *)

Lemma at_index_app : forall A (a : list A) x b, at_index (a ++ x :: b) (zlen a) = Ok x.
Proof.
  intros A a x b. unfold at_index. assert (0 <= zlen a) by apply zlen_nonneg. destruct (Z.ltb_spec (zlen a) 0); [lia|].
  unfold zlen. rewrite Nat2Z.id, nth_error_app2, Nat.sub_diag by lia. reflexivity.
Qed.
Lemma at_index_end : forall A (a : list A), at_index a (zlen a) = Err (PExc IndexError).
Proof.
  intros A a. unfold at_index. assert (0 <= zlen a) by apply zlen_nonneg. destruct (Z.ltb_spec (zlen a) 0); [lia|].
  unfold zlen. rewrite Nat2Z.id. rewrite (proj2 (nth_error_None a (length a))) by lia. reflexivity.
Qed.
Lemma replace_app : forall A (a : list A) x v b, replace_nth (length a) v (a ++ x :: b) = a ++ v :: b.
Proof. induction a; intros; cbn [length app replace_nth]; congruence. Qed.
Lemma set_index_app : forall A (a : list A) x v b, set_index (a ++ x :: b) (zlen a) v = Ok (a ++ v :: b).
Proof.
  intros A a x v b. unfold set_index. assert (0 <= zlen a) by apply zlen_nonneg. assert (0 <= zlen b) by apply zlen_nonneg.
  rewrite zlen_app, zlen_cons. destruct (Z.ltb_spec (zlen a) 0); [lia|].
  destruct (Z.leb_spec (zlen a + (1 + zlen b)) (zlen a)); [lia|]. cbn [orb]. unfold zlen at 1. rewrite Nat2Z.id, replace_app. reflexivity.
Qed.
Lemma set_index_inv : forall A (l : list A) i v l', set_index l i v = Ok l' ->
  exists a x b, l = a ++ x :: b /\ zlen a = i /\ l' = a ++ v :: b.
Proof.
  intros A l i v l' H. unfold set_index in H. destruct (Z.ltb_spec i 0); [discriminate|].
  destruct (Z.leb_spec (zlen l) i); [discriminate|]. cbn [orb] in H. injection H as <-.
  destruct (nth_error l (Z.to_nat i)) as [x|] eqn:E; [|apply nth_error_None in E; unfold zlen in *; lia].
  apply nth_error_split in E. destruct E as (a & b & -> & L). exists a, x, b. split; [reflexivity|].
  unfold zlen. split; [lia|]. rewrite <- L, replace_app. reflexivity.
Qed.

(** A loop over the addresses of consecutive bytes. *)
Lemma fold_bytes : forall (f : Z -> Z -> Z) m b a h i, zlen b = i ->
  fold_res (fun h i => let? x := at_index (b ++ m ++ a) i in Ok (f h x))
    (map (fun k => i + 1 * Z.of_nat k) (seq 0 (length m))) h = Ok (fold_left f m h).
Proof.
  intros f m. induction m as [|x m IH]; intros b a h i E; [reflexivity|].
  cbn [length seq map fold_res]. replace (i + 1 * Z.of_nat 0) with (zlen b) by lia. cbn [app]. rewrite at_index_app. cbn [fold_left].
  specialize (IH (b ++ [x]) a (f h x) (i + 1)). rewrite <- IH by (rewrite zlen_app, zlen_cons, zlen_nil; lia).
  rewrite <- seq_shift, map_map. rewrite <- app_assoc. cbn [app]. cbn [rbind]. f_equal. apply map_ext. intros k. lia.
Qed.
Lemma fold_bytes_short : forall (f : Z -> Z -> Z) n m b h i, zlen b = i -> (length m < n)%nat ->
  fold_res (fun h i => let? x := at_index (b ++ m) i in Ok (f h x))
    (map (fun k => i + 1 * Z.of_nat k) (seq 0 n)) h = Err (PExc IndexError).
Proof.
  intros f n. induction n as [|n IH]; intros m b h i E L; [lia|].
  cbn [seq map fold_res]. replace (i + 1 * Z.of_nat 0) with (zlen b) by lia. destruct m as [|x m].
  - rewrite app_nil_r, at_index_end. reflexivity.
  - rewrite at_index_app. specialize (IH m (b ++ [x]) (f h x) (i + 1)).
    rewrite <- seq_shift, map_map. rewrite <- app_assoc in IH. cbn [app length] in IH, L. rewrite <- IH by (rewrite ?zlen_app, ?zlen_cons, ?zlen_nil; lia).
    cbn [rbind]. f_equal. apply map_ext. intros k. lia.
Qed.
Lemma fold_bytes_far : forall (f : Z -> Z -> Z) n out h i, zlen out <= i -> (1 <= n)%nat ->
  fold_res (fun h i => let? x := at_index out i in Ok (f h x))
    (map (fun k => i + 1 * Z.of_nat k) (seq 0 n)) h = Err (PExc IndexError).
Proof.
  intros f [|n] out h i E L; [lia|]. cbn [seq map fold_res]. unfold at_index.
  assert (0 <= zlen out) by apply zlen_nonneg. destruct (Z.ltb_spec (i + 1 * Z.of_nat 0) 0); [lia|].
  rewrite (proj2 (nth_error_None out (Z.to_nat (i + 1 * Z.of_nat 0)))) by (unfold zlen in *; lia). reflexivity.
Qed.
(** All bytes i .. i+n-1, or an error. *)
Lemma fold_range : forall (f : Z -> Z -> Z) out h i n r, 0 <= i -> (1 <= n)%nat ->
  fold_res (fun h i => let? x := at_index out i in Ok (f h x)) (map (fun k => i + 1 * Z.of_nat k) (seq 0 n)) h = Ok r ->
  exists a m b, out = a ++ m ++ b /\ zlen a = i /\ length m = n /\ r = fold_left f m h.
Proof.
  intros f out h i n r I N H. destruct (Z.leb_spec (zlen out) i) as [L|L]; [rewrite fold_bytes_far in H by auto; discriminate|].
  pose proof (firstn_skipn (Z.to_nat i) out) as S. set (a := firstn (Z.to_nat i) out) in *. set (t := skipn (Z.to_nat i) out) in *.
  assert (LA : zlen a = i) by (unfold a, zlen in *; rewrite firstn_length; lia).
  destruct (Nat.ltb_spec (length t) n) as [L2|L2].
  - rewrite <- S, fold_bytes_short in H by auto. discriminate.
  - pose proof (firstn_skipn n t) as T. exists a, (firstn n t), (skipn n t). rewrite T. split; [auto|]. split; [auto|].
    split; [rewrite firstn_length; lia|].
    assert (LN : length (firstn n t) = n) by (rewrite firstn_length; lia).
    pose proof (fold_bytes f (firstn n t) a (skipn n t) h i LA) as Q. rewrite T, S, LN in Q. rewrite Q in H. injection H as <-. reflexivity.
Qed.

Lemma total_app : forall a b, total (a ++ b) = total a + total b.
Proof. induction a; intros; cbn [app total]; [lia|]. rewrite IHa. lia. Qed.
Lemma fold_add : forall l h, fold_left Z.add l h = h + total l.
Proof. induction l; intros; cbn [fold_left total]; [lia|]. rewrite IHl. lia. Qed.
Lemma fold_header : forall l h, fold_left (fun h b => h - b - 1) l h = h - total l - zlen l.
Proof. induction l; intros; cbn [fold_left total]; [change (zlen []) with 0; lia|]. rewrite IHl, zlen_cons. lia. Qed.
Lemma fold_sub : forall l h, fold_left (fun h b => h - b) l h = h - total l.
Proof. induction l; intros; cbn [fold_left total]; [lia|]. rewrite IHl. lia. Qed.

Lemma byte_mid : forall a x b i, zlen a = i -> byte_at (a ++ x :: b) i = x.
Proof. intros a x b i <-. unfold byte_at, zlen. rewrite Nat2Z.id, app_nth2, Nat.sub_diag by lia. reflexivity. Qed.
Lemma byte_other : forall a x y b i j, zlen a = i -> 0 <= j -> j <> i -> byte_at (a ++ x :: b) j = byte_at (a ++ y :: b) j.
Proof.
  intros a x y b i j E J N. unfold byte_at, zlen in *. destruct (Nat.ltb_spec (Z.to_nat j) (length a)).
  - rewrite !app_nth1 by auto. reflexivity.
  - rewrite !app_nth2 by auto. destruct (Z.to_nat j - length a)%nat eqn:Q; [lia|]. reflexivity.
Qed.
Lemma differ_refl : forall l, differ_at [] l l.
Proof. split; auto. Qed.
Lemma differ_set : forall at_ l a x y b, differ_at at_ l (a ++ x :: b) -> differ_at (zlen a :: at_) l (a ++ y :: b).
Proof.
  intros at_ l a x y b [L D]. split; [rewrite <- L, !zlen_app, !zlen_cons; reflexivity|]. intros i I N. cbn [In] in N.
  rewrite (byte_other a y x b (zlen a) i) by auto. apply D; auto.
Qed.

Lemma land_255 : forall v, Z.land v 0xFF = v mod 256.
Proof. intros v. change 0xFF with (Z.ones 8). rewrite Z.land_ones by lia. reflexivity. Qed.
Lemma high_255 : forall v, Z.land (Z.shiftr v 8) 0xFF = v / 256 mod 256.
Proof. intros v. rewrite land_255, Z.shiftr_div_pow2 by lia. reflexivity. Qed.
Lemma two_bytes : forall v, 256 * (v / 256 mod 256) + v mod 256 = v mod 65536.
Proof. intros v. change 65536 with (256 * 256). rewrite Z.rem_mul_r by lia. lia. Qed.

(** ** Game Boy *)

Lemma gb_fix_inv : forall s s', gb_fix s = (s', Ok tt) -> exists a m h x y b,
  assembled s = a ++ m ++ h :: x :: y :: b /\ zlen a = 0x134 /\ length m = 25%nat /\
  s' = set_assembled s (assembled s') /\
  let h' := (- total m - 25) mod 256 in let g := total a + total m + h' + x + y + total b in
  assembled s' = a ++ m ++ h' :: g / 256 mod 256 :: g mod 256 :: b.
Proof.
  intros s s' H. unfold gb_fix, bind at 1, get, lift, modify in H. unfold py_range in H.
  change (Z.to_nat ((0x14d - 0x134 + 1 - 1) / 1)) with 25%nat in H.
  unfold bind at 1 in H.
  match type of H with context [fold_res ?f ?l 0] => destruct (fold_res f l 0) as [h|] eqn:F end; [|discriminate].
  apply (fold_range (fun h b => h - b - 1)) in F; [|lia|lia]. destruct F as (a & m & t & E & LA & LM & ->).
  rewrite fold_header in H. assert (ZM : zlen m = 25) by (unfold zlen; lia). rewrite ZM in H. rewrite land_255 in H.
  replace (0 - total m - 25) with (- total m - 25) in H by lia.
  unfold bind at 1 in H. destruct (set_index (assembled s) 0x14d _) as [o1|] eqn:S1; [|discriminate].
  unfold bind at 1 in H. unfold bind at 1 in H. rewrite fold_add, high_255, land_255, Z.add_0_l in H.
  apply set_index_inv in S1. destruct S1 as (a1 & h0 & b1 & E1 & L1 & ->).
  assert (X : a1 = a ++ m /\ t = h0 :: b1).
  { rewrite E, app_assoc in E1.     assert (length (a ++ m) = length a1) by (rewrite app_length; unfold zlen in *; lia).
    clear - E1 H0. revert a1 E1 H0. induction (a ++ m) as [|z l IH]; intros [|w a1] E1 L; try discriminate.
    - split; [reflexivity|exact E1].
    - injection E1 as -> E1. injection L as L. destruct (IH a1 E1 L) as [-> ->]. auto. }
  destruct X as [-> ->]. 
  destruct (set_index _ 0x14e _) as [o2|] eqn:S2; [|discriminate]. unfold bind at 1 in H.
  unfold bind in H. destruct (set_index o2 0x14f _) as [o3|] eqn:S3; [|discriminate]. injection H as <-.
  set (h' := (- total m - 25) mod 256) in *.
  destruct b1 as [|x b1].
  { assert (Q : zlen ((a ++ m) ++ [h']) = 0x14e) by (rewrite !zlen_app, LA, ZM; reflexivity).
    unfold set_index in S2. rewrite Q in S2. discriminate. }
  assert (B2 : (a ++ m) ++ h' :: x :: b1 = (a ++ m ++ [h']) ++ x :: b1) by (rewrite <- !app_assoc; reflexivity).
  assert (L2 : zlen (a ++ m ++ [h']) = 0x14e) by (rewrite !zlen_app, LA, ZM; reflexivity).
  rewrite B2 in S2. rewrite <- L2 in S2. rewrite set_index_app in S2. injection S2 as <-.
  destruct b1 as [|y b1].
  { unfold set_index in S3. rewrite zlen_app, L2 in S3. discriminate. }
  match type of S3 with set_index (?p ++ ?g1 :: y :: b1) _ _ = _ =>
    assert (B3 : p ++ g1 :: y :: b1 = (p ++ [g1]) ++ y :: b1) by (rewrite <- (app_assoc p); reflexivity);
    assert (L3 : zlen (p ++ [g1]) = 0x14f) by (rewrite zlen_app, L2; reflexivity) end.
  rewrite B3 in S3. rewrite <- L3, B2 in S3. rewrite set_index_app in S3. injection S3 as <-.
  exists a, m, h0, x, y, b1. split; [exact E|]. split; [exact LA|]. split; [exact LM|].
  split; [destruct s; reflexivity|]. cbn zeta. cbn [assembled set_assembled]. fold h'.
  replace (total ((a ++ m ++ [h']) ++ x :: y :: b1)) with (total a + total m + h' + x + y + total b1)
    by (rewrite !total_app; cbn [total]; lia).
  rewrite <- !app_assoc. reflexivity.
Qed.

Lemma cut : forall A (l : list A) n, (n <= length l)%nat -> exists a b, l = a ++ b /\ length a = n.
Proof. intros A l n L. exists (firstn n l), (skipn n l). rewrite firstn_skipn, firstn_length. split; [reflexivity|lia]. Qed.

Lemma gb_fix_ok : forall s, 0x150 <= zlen (assembled s) -> exists s', gb_fix s = (s', Ok tt).
Proof.
  intros s L.
  destruct (cut _ (assembled s) (Z.to_nat 0x134)) as (a & t & E & LA); [unfold zlen in L; lia|].
  assert (ZA : zlen a = 0x134) by (unfold zlen; lia). rewrite E, zlen_app, ZA in L.
  destruct (cut _ t 25) as (m & u & -> & LM); [unfold zlen in L; lia|].
  assert (ZM : zlen m = 25) by (unfold zlen; lia). rewrite zlen_app, ZM in L.
  destruct u as [|h [|x [|y b]]]; rewrite ?zlen_cons, ?zlen_nil in L; try (exfalso; unfold zlen in L; cbn in L; lia).
  unfold gb_fix, bind at 1, get, lift, modify. unfold py_range. change (Z.to_nat ((0x14d - 0x134 + 1 - 1) / 1)) with 25%nat.
  unfold bind at 1. rewrite E.
  pose proof (fold_bytes (fun h b => h - b - 1) m a (h :: x :: y :: b) 0 0x134 ZA) as Q. rewrite LM in Q. rewrite Q.
  set (v1 := Z.land _ 0xFF).
  assert (S1 : set_index (a ++ m ++ h :: x :: y :: b) 0x14d v1 = Ok ((a ++ m) ++ v1 :: x :: y :: b)).
  { rewrite app_assoc. replace 0x14d with (zlen (a ++ m)) by (rewrite zlen_app; lia). apply set_index_app. }
  unfold bind at 1. rewrite S1. unfold bind at 1. unfold bind at 1.
  set (v2 := Z.land (Z.shiftr _ _) 0xFF).
  assert (S2 : set_index ((a ++ m) ++ v1 :: x :: y :: b) 0x14e v2 = Ok ((a ++ m ++ [v1]) ++ v2 :: y :: b)).
  { replace ((a ++ m) ++ v1 :: x :: y :: b) with ((a ++ m ++ [v1]) ++ x :: y :: b) by (rewrite <- !app_assoc; reflexivity).
    replace 0x14e with (zlen (a ++ m ++ [v1])) by (rewrite !zlen_app, ZA, ZM; reflexivity). apply set_index_app. }
  rewrite S2. unfold bind at 1. unfold bind.
  set (v3 := Z.land _ 0xFF).
  assert (S3 : set_index ((a ++ m ++ [v1]) ++ v2 :: y :: b) 0x14f v3 = Ok ((a ++ m ++ [v1] ++ [v2]) ++ v3 :: b)).
  { replace ((a ++ m ++ [v1]) ++ v2 :: y :: b) with ((a ++ m ++ [v1] ++ [v2]) ++ y :: b) by (rewrite <- !app_assoc; reflexivity).
    replace 0x14f with (zlen (a ++ m ++ [v1] ++ [v2])) by (rewrite !zlen_app, ZA, ZM; reflexivity). apply set_index_app. }
  rewrite S3. eexists. reflexivity.
Qed.

(** ** Genesis *)

Lemma join_word : forall h l, is_byte l -> Z.lor (Z.shiftl h 8) l = 256 * h + l.
Proof.
  intros h l L. unfold is_byte in L. rewrite Z.shiftl_mul_pow2 by lia.
  rewrite (WordFacts.lor_disjoint _ _ 8); [change (2 ^ 8) with 256; lia|lia|lia|exists h; reflexivity].
Qed.

Lemma fold_words : forall n l b h i, (length l <= n)%nat -> zlen b = i -> Forall is_byte l ->
  fold_res (fun h i => let? high := at_index (b ++ l) i in let? low := at_index (b ++ l) (i + 1) in
                       Ok (h + Z.lor (Z.shiftl high 8) low))
    (map (fun k => i + 2 * Z.of_nat k) (seq 0 (Z.to_nat ((zlen l + 1) / 2)))) h =
  if Z.even (zlen l) then Ok (h + word_total l) else Err (PExc IndexError).
Proof.
  induction n as [|n IH]; intros l b h i L E B.
  - destruct l; [|cbn in L; lia]. cbn. f_equal. lia.
  - destruct l as [|x [|y l]].
    + cbn. f_equal. lia.
    + change (Z.to_nat ((zlen [x] + 1) / 2)) with 1%nat. cbn [seq map fold_res].
      replace (i + 2 * Z.of_nat 0) with (zlen b) by lia. rewrite at_index_app. cbn [rbind].
      replace (zlen b + 1) with (zlen (b ++ [x])) by (rewrite zlen_app; reflexivity). rewrite at_index_end. reflexivity.
    + inversion B as [|? ? B1 B2]; subst. inversion B2 as [|? ? B3 B4]; subst.
      assert (C : Z.to_nat ((zlen (x :: y :: l) + 1) / 2) = S (Z.to_nat ((zlen l + 1) / 2))).
      { rewrite !zlen_cons. replace (1 + (1 + zlen l) + 1) with (zlen l + 1 + 1 * 2) by ring. rewrite Z.div_add by lia.
        assert (0 <= (zlen l + 1) / 2) by (apply Z.div_pos; [assert (0 <= zlen l) by apply zlen_nonneg; lia|lia]). lia. }
      rewrite C. cbn [seq map fold_res]. replace (zlen b + 2 * Z.of_nat 0) with (zlen b) by lia.
      rewrite at_index_app. cbn [rbind].
      assert (Q : b ++ x :: y :: l = (b ++ [x]) ++ y :: l) by (rewrite <- app_assoc; reflexivity).
      assert (Q2 : b ++ x :: y :: l = (b ++ [x; y]) ++ l) by (rewrite <- app_assoc; reflexivity).
      replace (zlen b + 1) with (zlen (b ++ [x])) by (rewrite zlen_app; reflexivity).
      rewrite Q at 1. rewrite at_index_app. cbn [rbind]. rewrite join_word by exact B3.
      specialize (IH l (b ++ [x; y]) (h + (256 * x + y)) (zlen b + 2)).
      assert (EV : Z.even (zlen (x :: y :: l)) = Z.even (zlen l)).
      { rewrite !zlen_cons. replace (1 + (1 + zlen l)) with (zlen l + 2 * 1) by ring. apply Z.even_add_mul_2. }
      rewrite EV. cbn [word_total]. replace (h + (256 * x + y + word_total l)) with (h + (256 * x + y) + word_total l) by ring.
      rewrite <- IH; [|cbn in L; lia|rewrite zlen_app; reflexivity|exact B4].
      rewrite Q2. rewrite <- seq_shift, map_map. f_equal. apply map_ext. intros k. lia.
Qed.

Lemma genesis_sum : forall out, Forall is_byte out ->
  fold_res (fun h i => let? high := at_index out i in let? low := at_index out (i + 1) in
                       Ok (h + Z.lor (Z.shiftl high 8) low)) (py_range 0x200 (zlen out) 2) 0 =
  if (zlen out <=? 0x200) || Z.even (zlen out) then Ok (word_total (skipn 0x200 out)) else Err (PExc IndexError).
Proof.
  intros out B. unfold py_range. destruct (Z.leb_spec (zlen out) 0x200) as [L|L]; cbn [orb].
  - replace (Z.to_nat ((zlen out - 0x200 + 2 - 1) / 2)) with 0%nat.
    + rewrite skipn_all2 by (unfold zlen in L; lia). reflexivity.
    + assert ((zlen out - 0x200 + 2 - 1) / 2 <= 0); [|lia]. apply Z.lt_succ_r. apply Z.div_lt_upper_bound; lia.
  - set (n := 0x200%nat). assert (N : Z.of_nat n = 0x200) by reflexivity. clearbody n.
    destruct (cut _ out n) as (a & l & -> & LA); [unfold zlen in L; lia|].
    assert (ZA : zlen a = 0x200) by (unfold zlen; lia). rewrite zlen_app, ZA in *.
    replace (skipn n (a ++ l)) with l by (rewrite <- LA, skipn_app, skipn_all, Nat.sub_diag; reflexivity).
    replace (0x200 + zlen l - 0x200 + 2 - 1) with (zlen l + 1) by ring.
    apply Forall_app in B. rewrite (fold_words (length l) l a 0 0x200) by (auto; apply B).
    replace (0x200 + zlen l) with (zlen l + 2 * 0x100) by ring. rewrite Z.even_add_mul_2. reflexivity.
Qed.

Lemma set_two : forall (out : bytes) i v w, 0 <= i -> i + 2 <= zlen out -> exists a x y b,
  out = a ++ x :: y :: b /\ zlen a = i /\
  (let? o := set_index out i v in set_index o (i + 1) w) = Ok (a ++ v :: w :: b).
Proof.
  intros out i v w I L. destruct (cut _ out (Z.to_nat i)) as (a & t & E & LA); [unfold zlen in L; lia|].
  assert (ZA : zlen a = i) by (unfold zlen; lia). rewrite E, zlen_app, ZA in L.
  destruct t as [|x [|y b]]; [exfalso; unfold zlen in L; cbn in L; lia|exfalso; unfold zlen in L; cbn in L; lia|].
  exists a, x, y, b. split; [exact E|]. split; [exact ZA|]. rewrite E, <- ZA, set_index_app. cbn [rbind].
  replace (a ++ v :: y :: b) with ((a ++ [v]) ++ y :: b) by (rewrite <- app_assoc; reflexivity).
  replace (zlen a + 1) with (zlen (a ++ [v])) by (rewrite zlen_app; reflexivity). rewrite set_index_app, <- app_assoc. reflexivity.
Qed.
Lemma set_two_short : forall (out : bytes) i v w, 0 <= i -> zlen out < i + 2 ->
  (let? o := set_index out i v in set_index o (i + 1) w) = Err (PExc IndexError).
Proof.
  intros out i v w I L. unfold set_index at 1. destruct (Z.ltb_spec i 0); [lia|]. destruct (Z.leb_spec (zlen out) i); [reflexivity|].
  cbn [orb rbind]. unfold set_index, zlen at 1. rewrite replace_length. fold (zlen out).
  destruct (Z.ltb_spec (i + 1) 0); [reflexivity|]. destruct (Z.leb_spec (zlen out) (i + 1)); [reflexivity|lia].
Qed.

Lemma genesis_fix_eq : forall out, Forall is_byte out -> genesis_fix out =
  if (zlen out <=? 0x200) || Z.even (zlen out) then
    let h := word_total (skipn 0x200 out) in
    let? o := set_index out 0x18e (h / 256 mod 256) in set_index o (0x18e + 1) (h mod 256)
  else Err (PExc IndexError).
Proof.
  intros out B. unfold genesis_fix. rewrite genesis_sum by exact B. destruct (_ || _); [|reflexivity].
  cbn [rbind]. cbv zeta. rewrite high_255, land_255. reflexivity.
Qed.

(** ** Game Boy Advance *)

Lemma gba_fix_inv : forall out out', gba_fix out = Ok out' -> exists a m x b,
  out = a ++ m ++ x :: b /\ zlen a = 0xA0 /\ length m = 29%nat /\ out' = a ++ m ++ (- total m - 0x19) mod 256 :: b.
Proof.
  intros out out' H. unfold gba_fix in H.
  destruct (fold_res _ (py_range 0xA0 0xBD 1) 0) as [h|] eqn:F; [|discriminate]. cbn [rbind] in H.
  apply (fold_range (fun h b => h - b) out 0 0xA0 29 h) in F; [|lia|lia].
  destruct F as (a & m & t & -> & LA & LM & ->). rewrite fold_sub in H. apply set_index_inv in H.
  destruct H as (a' & x & b & E & LA' & ->).
  assert (L : zlen (a ++ m) = 0xBD) by (rewrite zlen_app, LA; unfold zlen; rewrite LM; reflexivity).
  rewrite app_assoc in E.
  assert (Q : length (a ++ m) = length a') by (unfold zlen in *; lia).
  assert (P : a ++ m = a' /\ t = x :: b).
  { clear - E Q. revert a' E Q. generalize (a ++ m) as l. induction l as [|y l IH]; intros [|y' a'] E Q; try discriminate; [auto|].
    injection E as -> E. injection Q as Q. destruct (IH a' E Q) as [-> ->]. auto. }
  destruct P as [<- ->]. exists a, m, x, b. split; [reflexivity|]. split; [exact LA|]. split; [exact LM|].
  rewrite <- app_assoc. f_equal. f_equal. f_equal. rewrite land_255. f_equal; lia.
Qed.
Lemma gba_fix_ok : forall out, 0xBE <= zlen out -> exists out', gba_fix out = Ok out'.
Proof.
  intros out L. destruct (cut _ out (Z.to_nat 0xA0)) as (a & t & -> & LA); [unfold zlen in L; lia|].
  assert (ZA : zlen a = 0xA0) by (unfold zlen; lia). rewrite zlen_app, ZA in L.
  destruct (cut _ t 29) as (m & u & -> & LM); [unfold zlen in L; lia|].
  assert (ZM : zlen m = 29) by (unfold zlen; lia). rewrite zlen_app, ZM in L.
  destruct u as [|x b]; [exfalso; change (zlen []) with 0 in L; lia|].
  unfold gba_fix. pose proof (fold_bytes (fun h b => h - b) m a (x :: b) 0 0xA0 ZA) as FB. rewrite LM in FB.
  change (py_range 0xA0 0xBD 1) with (map (fun k => 0xA0 + 1 * Z.of_nat k) (seq 0 29)). rewrite FB. cbn [rbind].
  rewrite app_assoc. replace 0xBD with (zlen (a ++ m)) by (rewrite zlen_app; lia). rewrite set_index_app. eauto.
Qed.

(** ** PlayStation *)

Lemma psx_right : forall (program f : bytes), program <> [] -> zlen program <= 2 ^ 32 - 2048 -> psx_file program = Ok f -> psx_valid program f.
Proof.
  intros program f NE SZ H. unfold psx_file in H. cbv zeta in H.
  set (n := if zlen program mod 2048 =? 0 then 0%nat else Z.to_nat (2048 - zlen program mod 2048)).
  assert (M : 0 <= zlen program mod 2048 < 2048) by (apply Z.mod_pos_bound; lia).
  assert (BODY : (if zlen program mod 2048 =? 0 then program else program ++ repeat 0 (Z.to_nat (2048 - zlen program mod 2048))) =
                 program ++ repeat 0 n).
  { unfold n. destruct (_ =? _); [cbn [repeat]; rewrite app_nil_r|]; reflexivity. }
  assert (N : (n < 2048)%nat) by (unfold n; destruct (Z.eqb_spec (zlen program mod 2048) 0); lia).
  assert (D : zlen (program ++ repeat 0 n) mod 2048 = 0).
  { rewrite zlen_app. unfold zlen at 2. rewrite repeat_length. unfold n. destruct (Z.eqb_spec (zlen program mod 2048) 0) as [Q|Q].
    - rewrite Z.add_0_r. exact Q.
    - rewrite Z2Nat.id by lia. rewrite (Z.div_mod (zlen program) 2048) at 1 by lia.
      replace (2048 * (zlen program / 2048) + zlen program mod 2048 + (2048 - zlen program mod 2048))
        with ((zlen program / 2048 + 1) * 2048) by ring. apply Z.mod_mul. lia. }
  assert (SZB : 0 <= zlen (program ++ repeat 0 n) < 2 ^ 32).
  { split; [apply zlen_nonneg|]. rewrite zlen_app. unfold zlen at 2. rewrite repeat_length. lia. }
  rewrite BODY in H. set (body := program ++ repeat 0 n) in *.
  assert (NB : body <> []) by (unfold body; destruct program; [congruence|discriminate]).
  destruct (PropsData.pack_one false 4 pack_le32u (zlen body)) as (sz & EZ & LZ & RZ).
  { apply PropsUtils.C01_unsigned_packing. }
  { exact SZB. }
  rewrite EZ in H. cbn [rbind] in H.
  destruct sz as [|s0 [|s1 [|s2 [|s3 [|]]]]]; try discriminate.
  match type of H with Ok (write_at ?x _ _) = _ =>
    let v := eval vm_compute in x in assert (HX : x = v) by (vm_compute; reflexivity); rewrite HX in H; clear HX end.
  injection H as <-. unfold write_at. destruct body as [|b0 bs] eqn:EB; [congruence|]. rewrite <- EB in *. clear EB.
  rewrite skipn_all2 by (cbn [length]; unfold zlen; lia). rewrite app_nil_r.
  match goal with |- psx_valid _ (?h ++ _) => set (hd := h) end.
  assert (LH : length hd = 2048%nat) by (vm_compute; reflexivity).
  assert (SL : forall a k, 0 <= a -> 0 <= k -> a + k <= 2048 -> slice a k (hd ++ body) = slice a k hd).
  { intros a k A K L. unfold slice. rewrite skipn_app, firstn_app. rewrite skipn_length, LH.
    replace (Z.to_nat k - (2048 - Z.to_nat a))%nat with 0%nat by lia. rewrite firstn_O, app_nil_r. reflexivity. }
  assert (ZF : zlen (hd ++ body) = 2048 + zlen body) by (rewrite zlen_app; unfold zlen at 1; rewrite LH; reflexivity).
  constructor.
  - rewrite SL by lia. vm_compute. reflexivity.
  - unfold le32_at. rewrite SL by lia. vm_compute. reflexivity.
  - unfold le32_at. rewrite SL by lia. vm_compute. reflexivity.
  - unfold le32_at. rewrite SL by lia. rewrite ZF.
    replace (slice 0x1C 4 hd) with [s0; s1; s2; s3] by (vm_compute; reflexivity). rewrite RZ. lia.
  - rewrite ZF. rewrite <- Z.add_mod_idemp_l by lia. exact D.
  - exists n. split; [|exact N]. rewrite skipn_app, LH, Nat.sub_diag, skipn_all2 by lia. reflexivity.
Qed.

(** ** Scripts *)

Lemma files_iter : forall c fuel names s s2, iter (assemble_file c fuel) names s = (s2, Ok tt) <-> assembled_files c fuel names s s2.
Proof.
  intros c fuel names. induction names as [|n names IH]; intros s s2; cbn [iter].
  - split; [intros H; injection H as <-; constructor|intros H; inversion H; subst; reflexivity].
  - unfold bind at 1, assemble_file at 1, bind at 1, open_file. split.
    + intros H. destruct (file_text (c_env c) n) as [t|] eqn:FT; [|discriminate]. unfold ret in H.
      destruct (assemble c fuel t s) as [s1 [[]|]] eqn:A; [|discriminate]. econstructor; eauto. apply IH. exact H.
    + intros H. inversion H as [|? t ? ? s1 ? FT A R]; subst. rewrite FT. unfold ret. rewrite A. apply IH. exact R.
Qed.

(** ** Hexadecimal addresses *)

Fixpoint all_bits (n : nat) (acc : Z) (P : Z -> bool) : bool :=
  match n with O => P acc | S n => all_bits n (2 * acc) P && all_bits n (2 * acc + 1) P end.
Lemma all_bits_spec : forall n acc P, all_bits n acc P = true -> forall a, acc * 2 ^ Z.of_nat n <= a < (acc + 1) * 2 ^ Z.of_nat n -> P a = true.
Proof.
  induction n as [|n IH]; intros acc P H a A; cbn [all_bits] in H.
  - change (2 ^ Z.of_nat 0) with 1 in A. replace a with acc by lia. exact H.
  - apply andb_prop in H. destruct H as [H1 H2]. rewrite Nat2Z.inj_succ, Z.pow_succ_r in A by lia.
    destruct (Z.ltb_spec a ((2 * acc + 1) * 2 ^ Z.of_nat n)); [apply (IH (2 * acc))|apply (IH (2 * acc + 1))]; auto; lia.
Qed.
Definition hex_fine (a : Z) : bool :=
  Nat.eqb (length (format_04X a)) 4 && match hex_number 0 (format_04X a) with Some v => v =? a | None => false end.
Lemma hex_all : all_bits 16 0 hex_fine = true.
Proof. vm_cast_no_check (eq_refl true). Qed.
Lemma hex_04 : forall a, 0 <= a <= 0xFFFF -> length (format_04X a) = 4%nat /\ hex_number 0 (format_04X a) = Some a.
Proof.
  intros a A. pose proof (all_bits_spec 16 0 hex_fine hex_all a) as H. change (2 ^ Z.of_nat 16) with 65536 in H.
  specialize (H ltac:(lia)). unfold hex_fine in H. apply andb_prop in H. destruct H as [H1 H2]. apply Nat.eqb_eq in H1.
  split; [exact H1|]. destruct (hex_number _ _); [apply Z.eqb_eq in H2; subst; reflexivity|discriminate].
Qed.
