(** The 68000 instructions. *)
From Coq Require Import Lia.
From Verif Require Import Py PyFacts Utils Tokenizer State Assembler SpecUtils SpecExec SpecLink
  UtilsFacts SpecCpu Instr CpuFacts WordFacts FitFacts Mc68000 SpecM68 M68Lex M68Facts.
Local Open Scope Z_scope.

(** ** Sequences of items *)

Lemma item_referring : forall p s es off i b ds, stored_item p (referring s es) off i b ds <-> stored_item p s off i b ds.
Proof.
  intros p s es off i b ds. destruct (referring_only es s) as [la ->].
  split; intros H; destruct H as [w|sl t v N|sl t N]; [apply si_fixed|apply si_number; exact N|exact (si_name p s off sl t N)|apply si_fixed|apply si_number; exact N|exact (si_name p (set_labels_addresses s la) off sl t N)].
Qed.
Lemma items_referring : forall p s es off is b ds, stored_items p (referring s es) off is b ds <-> stored_items p s off is b ds.
Proof.
  intros p s es off is b ds. split; intros H; induction H; constructor; auto; eapply item_referring; eauto.
Qed.
Lemma items_app : forall p s is js off b ds, stored_items p s off (is ++ js) b ds <->
  exists b1 d1 b2 d2, b = b1 ++ b2 /\ ds = d1 ++ d2 /\ stored_items p s off is b1 d1 /\ stored_items p s (off + zlen b1) js b2 d2.
Proof.
  intros p s is. induction is as [|i is IH]; intros js off b ds; cbn [app]; split.
  - intros H. exists [], [], b, ds. change (zlen []) with 0. rewrite Z.add_0_r. repeat split; [constructor|exact H].
  - intros (b1 & d1 & b2 & d2 & -> & -> & H1 & H2). apply items_nil in H1. destruct H1 as [-> ->].
    change (zlen []) with 0 in H2. rewrite Z.add_0_r in H2. exact H2.
  - intros H. inversion H as [|? ? ? b0 bs d0 es H1 H2]; subst. apply IH in H2. destruct H2 as (b1 & d1 & b2 & d2 & -> & -> & H2 & H3).
    exists (b0 ++ b1), (d0 ++ d1), b2, d2. rewrite !app_assoc. repeat split; [constructor; assumption|].
    rewrite zlen_app, Z.add_assoc. exact H3.
  - intros (b1 & d1 & b2 & d2 & -> & -> & H1 & H2). inversion H1 as [|? ? ? b0 bs d0 es H3 H4]; subst.
    rewrite <- !app_assoc. constructor; [exact H3|]. apply IH. exists bs, es, b2, d2. repeat split; [exact H4|].
    rewrite zlen_app, Z.add_assoc in H2. exact H2.
Qed.
Lemma items_fixed : forall p s w is b ds, stored_items p s 0 (Fixed w :: is) b ds <->
  exists bs, b = msb 2 w ++ bs /\ stored_items p s 2 is bs ds.
Proof.
  intros p s w is b ds. split.
  - intros H. inversion H as [|? ? ? b0 bs d0 es H1 H2]; subst. inversion H1; subst. exists bs. split; [reflexivity|]. exact H2.
  - intros (bs & -> & H). change ds with ([] ++ ds). constructor; [constructor|]. exact H.
Qed.

(** ** Instruction words *)

Lemma below : forall n (f : Z -> bool), forallb f (map Z.of_nat (seq 0 n)) = true -> forall v, 0 <= v < Z.of_nat n -> f v = true.
Proof.
  intros n f H v V. rewrite forallb_forall in H. apply H. apply in_map_iff. exists (Z.to_nat v).
  split; [lia|]. apply in_seq. lia.
Qed.
Definition gives (w : Z) (r : res Z) : bool := match r with Ok v => v =? w | Err _ => false end.
Lemma gives_ok : forall w base fs, gives w (pack_bits base fs) = true -> mc_build base fs = lift (Ok (msb 2 w)).
Proof.
  intros w base fs H. unfold mc_build, pack_bits_be16u. destruct (pack_bits base fs) as [v|e]; [|discriminate].
  cbn [gives] in H. apply Z.eqb_eq in H. subst v. cbn [rbind]. rewrite pack16. reflexivity.
Qed.
Definition oct : list Z := map Z.of_nat (seq 0 8).
Lemma oct_all : forall f, forallb f oct = true -> forall v, 0 <= v < 8 -> f v = true.
Proof. intros f H. exact (below 8 f H). Qed.

Lemma word_move : forall k r m x y, 0 <= k < 4 -> 0 <= r < 8 -> 0 <= m < 8 -> 0 <= x < 8 -> 0 <= y < 8 ->
  mc_build 0 [((13, 12), k); ((11, 9), r); ((8, 6), m); ((5, 3), x); ((2, 0), y)] = lift (Ok (msb 2 (k * 4096 + r * 512 + m * 64 + x * 8 + y))).
Proof.
  intros. unfold mc_build. rewrite (pack_fields 0 _ 14); [|repeat split; lia| |exists 0; reflexivity].
  - f_equal. f_equal. f_equal. cbn [field_sum fold_right].
    change (2 ^ (13 - 12 + 1)) with 4. change (2 ^ (11 - 9 + 1)) with 8. change (2 ^ (8 - 6 + 1)) with 8. change (2 ^ (5 - 3 + 1)) with 8. change (2 ^ (2 - 0 + 1)) with 8.
    change (2 ^ 12) with 4096. change (2 ^ 9) with 512. change (2 ^ 6) with 64. change (2 ^ 3) with 8. change (2 ^ 0) with 1.
    rewrite !Z.mod_small by lia. lia.
  - repeat constructor; cbn [fits_field]; cbn; lia.
Qed.
Lemma word_movea : forall k r x y, 0 <= k < 4 -> 0 <= r < 8 -> 0 <= x < 8 -> 0 <= y < 8 ->
  mc_build 0x0040 [((13, 12), k); ((11, 9), r); ((5, 3), x); ((2, 0), y)] = lift (Ok (msb 2 (k * 4096 + r * 512 + 64 + x * 8 + y))).
Proof.
  intros k r x y K R X Y. apply gives_ok.
  assert (T : forallb (fun k => forallb (fun r => forallb (fun x => forallb (fun y =>
    gives (k * 4096 + r * 512 + 64 + x * 8 + y) (pack_bits 0x0040 [((13, 12), k); ((11, 9), r); ((5, 3), x); ((2, 0), y)])) oct) oct) oct) (map Z.of_nat (seq 0 4)) = true)
    by (vm_compute; reflexivity).
  pose proof (below 4 _ T k K) as T1. cbv beta in T1. pose proof (oct_all _ T1 r R) as T2. cbv beta in T2.
  pose proof (oct_all _ T2 x X) as T3. cbv beta in T3. exact (oct_all _ T3 y Y).
Qed.
Lemma word_lea : forall r x y, 0 <= r < 8 -> 0 <= x < 8 -> 0 <= y < 8 ->
  mc_build 0x41C0 [((11, 9), r); ((5, 3), x); ((2, 0), y)] = lift (Ok (msb 2 (0x41C0 + r * 512 + x * 8 + y))).
Proof.
  intros r x y R X Y. apply gives_ok.
  assert (T : forallb (fun r => forallb (fun x => forallb (fun y =>
    gives (0x41C0 + r * 512 + x * 8 + y) (pack_bits 0x41C0 [((11, 9), r); ((5, 3), x); ((2, 0), y)])) oct) oct) oct = true)
    by (vm_compute; reflexivity).
  pose proof (oct_all _ T r R) as T2. cbv beta in T2. pose proof (oct_all _ T2 x X) as T3. cbv beta in T3. exact (oct_all _ T3 y Y).
Qed.
Lemma word_loop : forall k y, 0 <= k < 16 -> 0 <= y < 8 ->
  mc_build 0x50C8 [((11, 8), k); ((2, 0), y)] = lift (Ok (msb 2 (0x50C8 + k * 256 + y))).
Proof.
  intros k y K Y. apply gives_ok.
  assert (T : forallb (fun k => forallb (fun y =>
    gives (0x50C8 + k * 256 + y) (pack_bits 0x50C8 [((11, 8), k); ((2, 0), y)])) oct) (map Z.of_nat (seq 0 16)) = true)
    by (vm_compute; reflexivity).
  pose proof (below 16 _ T k K) as T1. cbv beta in T1. exact (oct_all _ T1 y Y).
Qed.
Lemma word_jump : forall base x y, (64 | base) -> 0 <= x < 8 -> 0 <= y < 8 ->
  mc_build base [((5, 3), x); ((2, 0), y)] = lift (Ok (msb 2 (base + x * 8 + y))).
Proof.
  intros base x y B X Y. unfold mc_build. rewrite (pack_fields base _ 6); [|repeat split; lia| |exact B].
  - f_equal. f_equal. f_equal. cbn [field_sum fold_right]. change (2 ^ (5 - 3 + 1)) with 8. change (2 ^ (2 - 0 + 1)) with 8.
    change (2 ^ 3) with 8. change (2 ^ 0) with 1. rewrite !Z.mod_small by lia. lia.
  - repeat constructor; cbn [fits_field]; cbn; lia.
Qed.
Lemma word_imm : forall base k x y, (256 | base) -> 0 <= k < 4 -> 0 <= x < 8 -> 0 <= y < 8 ->
  mc_build base [((7, 6), k); ((5, 3), x); ((2, 0), y)] = lift (Ok (msb 2 (base + k * 64 + x * 8 + y))).
Proof.
  intros base k x y B K X Y. unfold mc_build. rewrite (pack_fields base _ 8); [|repeat split; lia| |exact B].
  - f_equal. f_equal. f_equal. cbn [field_sum fold_right]. change (2 ^ (7 - 6 + 1)) with 4. change (2 ^ (5 - 3 + 1)) with 8. change (2 ^ (2 - 0 + 1)) with 8.
    change (2 ^ 6) with 64. change (2 ^ 3) with 8. change (2 ^ 0) with 1. rewrite !Z.mod_small by lia. lia.
  - repeat constructor; cbn [fits_field]; cbn; lia.
Qed.
Lemma word_plain : forall base, mc_build base [] = lift (Ok (msb 2 base)).
Proof. intros. unfold mc_build, pack_bits_be16u. cbn [pack_bits rbind]. rewrite pack16. reflexivity. Qed.
Lemma word_branch : forall k, 0 <= k < 16 -> mc_build 0x6000 [((11, 8), k)] = lift (Ok (msb 2 (0x6000 + k * 256))).
Proof.
  intros k K. unfold mc_build. rewrite (pack_fields 0x6000 _ 12); [|repeat split; lia| |exists 6; reflexivity].
  - f_equal. f_equal. f_equal. cbn [field_sum fold_right]. change (2 ^ (11 - 8 + 1)) with 16. change (2 ^ 8) with 256. rewrite !Z.mod_small by lia. lia.
  - repeat constructor; cbn [fits_field]; cbn; lia.
Qed.
Lemma packs_branch8 : forall k, 0 <= k < 16 -> packs (branch8 (0x6000 + k * 256)) (fun v => pack_bits_be16u 0x6000 [((11, 8), k); ((7, 0), v)]).
Proof.
  intros k K v R S. cbn [branch8 sl_bits sl_bytes sl_word rest_of] in *. rewrite (pack_fields 0x6000 _ 12); [|repeat split; lia| |exists 6; reflexivity].
  - f_equal. f_equal. cbn [field_sum fold_right]. change (2 ^ (11 - 8 + 1)) with 16. change (2 ^ (7 - 0 + 1)) with 256. change (2 ^ 8) with 256. change (2 ^ 0) with 1.
    rewrite (Z.mod_small k) by lia. lia.
  - repeat constructor; cbn [fits_field]; change (2 ^ (8 - 1)) with 128 in R; change (2 ^ 8) with 256 in R; cbn; lia.
Qed.

(** ** Operands *)

Lemma ea_range : forall b sz ts m r items, ea b sz ts m r items -> 0 <= m < 8 /\ 0 <= r < 8.
Proof.
  intros b sz ts m r items H.
  assert (R : forall t n, dreg t n \/ areg t n -> 0 <= n < 8) by (intros; eapply reg_range; eauto).
  destruct H; split; try lia; eapply R; eauto.
Qed.
Lemma ea_lax : forall b sz ts m r items, ea b sz ts m r items -> ea false sz ts m r items.
Proof.
  intros b sz ts m r items H.
  destruct H; econstructor; eauto using value_lax, pc_lax, suffix_lax.
Qed.
Lemma ea_any_size : forall b sz sz' ts m r items, ea b sz ts m r items -> control m r -> ea b sz' ts m r items.
Proof.
  intros b sz sz' ts m r items H C. destruct H; try (econstructor; eauto; fail). exfalso. unfold control in C. lia.
Qed.
Lemma ea_no_plus : forall sz ts m r items rest, ea true sz ts m r items -> no_plus (ts ++ rest).
Proof.
  intros sz ts m r items rest H. destruct H; cbn [app no_plus]; try discriminate; try (eapply reg_not_mark; eauto; fail);
    try (apply (proj2 (proj2 (proj2 (proj2 (proj2 H))))); reflexivity).
Qed.
Lemma ea_not_a : forall sz ts m r items t, ea true sz ts m r items -> alterable m r -> ts = [t] -> imatch1 (PTuple a_regs) t = false.
Proof.
  intros sz ts m r items t H A E. destruct H; try discriminate; try (exfalso; unfold alterable in A; lia);
    try (injection E as <-; apply v_a; assumption).
  injection E as <-. destruct (imatch1 (PTuple a_regs) t0) eqn:X; [|reflexivity]. apply match_a in X. destruct X as (k & X).
  apply a_not_d in X. rewrite (d_yes _ _ H) in X. discriminate.
Qed.
Lemma skipn_len : forall A (a b : list A), skipn (length a) (a ++ b) = b.
Proof. induction a; intros; cbn [length app skipn]; auto. Qed.
Lemma past : forall (t0 : str) pre rest, skipn (1 + length pre) (t0 :: pre ++ rest) = rest.
Proof. intros. cbn [plus skipn]. apply skipn_len. Qed.
Lemma imatch_last : forall t0 pre rest p, imatch (t0 :: pre ++ rest) (1 + length pre) [p] = true <-> exists t, rest = [t] /\ imatch1 p t = true.
Proof.
  intros t0 pre rest p. unfold imatch. rewrite past. cbn [length]. rewrite app_length, andb_true_iff, Nat.eqb_eq. split.
  - intros [L M]. destruct rest as [|t [|u rest]]; cbn [length] in L; try lia. cbn [match_all] in M. rewrite andb_true_r in M. eauto.
  - intros (t & -> & M). cbn [length match_all]. rewrite M. split; [lia|reflexivity].
Qed.
Lemma tok_last : forall t0 pre rest t, rest = [t] -> tok_at (t0 :: pre ++ rest) (1 + length pre) = ret t.
Proof. intros t0 pre rest t ->. eapply (tok_known0 _ _ [] []). rewrite past. reflexivity. Qed.
Lemma pc_referring : forall s ds, pc (referring s ds) = pc s.
Proof. intros s ds. destruct (referring_only ds s) as [la ->]. reflexivity. Qed.

Lemma move_size_range : forall sz, 0 <= move_size sz < 4.
Proof. intros. unfold move_size. destruct (sz =? 1), (sz =? 2); lia. Qed.
Lemma op_size_range : forall sz, 0 <= op_size sz < 4.
Proof. intros. unfold op_size. destruct (sz =? 1), (sz =? 2); lia. Qed.

(** A handler delivers these items. *)
Definition delivers (f : list str -> M (option bytes)) (t0 : str) (ops : list str) (s : st) (items : list item) : Prop :=
  forall s1 b, f (t0 :: ops) s = (s1, Ok (Some b)) <-> exists ds, stored_items mc_p s 0 items b ds /\ s1 = referring s ds.
(** A handler that delivers something delivers items satisfying P. *)
Definition sound_for (f : list str -> M (option bytes)) (t0 : str) (P : list str -> list item -> Prop) : Prop :=
  forall ops s s1 b, 0 <= pc s -> f (t0 :: ops) s = (s1, Ok (Some b)) ->
    exists items ds, P ops items /\ stored_items mc_p s 0 items b ds /\ s1 = referring s ds.

Lemma tok_first : forall (t0 : str) ops, tok_at (t0 :: ops) 0 = ret t0. Proof. reflexivity. Qed.

(** *** move *)

Lemma to_address_ok : forall t0 pre rest t n k x y data s s1 b, rest = [t] -> areg t n -> 0 <= k < 4 -> 0 <= x < 8 -> 0 <= y < 8 ->
  mc_to_address (t0 :: pre ++ rest) (1 + length pre) k x y data s = (s1, Ok (Some b)) <->
  b = msb 2 (k * 4096 + n * 512 + 64 + x * 8 + y) ++ data /\ s1 = s.
Proof.
  intros t0 pre rest t n k x y data s s1 b E A K X Y. unfold mc_to_address.
  rewrite (tok_last _ _ _ _ E), ret_bind, (reg_value t n) by auto. rewrite lift_bind, word_movea, lift_bind; try assumption.
  - rewrite ret_ok. split; [intros [H ->]; injection H as ->; auto|intros [-> ->]; auto].
  - eapply reg_range; eauto.
Qed.

Section Move.
  Context (t0 : str) (sz : Z) (SZ : size_ok sz) (D : mc_s_dark t0 = (sz, move_size sz)).

  Definition move_form (strict : bool) (ops : list str) (items : list item) : Prop :=
    exists src sm sr si, ea strict sz src sm sr si /\
      ((exists t n, ops = src ++ [t] /\ sz <> 1 /\ areg t n /\
          items = Fixed (move_size sz * 4096 + n * 512 + 64 + sm * 8 + sr) :: si) \/
       (exists dst dm dr di rest, ops = src ++ dst ++ rest /\ (strict = true -> rest = []) /\ ea strict sz dst dm dr di /\ alterable dm dr /\
          items = Fixed (move_size sz * 4096 + dr * 512 + dm * 64 + sm * 8 + sr) :: si ++ di)).

  Lemma wide : forall A (x y : A), (if ((sz =? 2) || (sz =? 4)) && false then x else y) = y.
  Proof. intros. rewrite andb_false_r. reflexivity. Qed.

  Lemma move_sound : sound_for mc_move t0 (move_form false).
  Proof.
    intros ops s s1 b PC H. unfold mc_move in H. rewrite tok_first, ret_bind, D in H.
    apply bind_ok in H. destruct H as (s2 & [[[next sm] sr] sd] & H & H2).
    apply (mode_sound _ _ _ _ Any) in H; [|exact PC|lia|left; exact SZ].
    destruct H as (src & rest & si & ds & S & -> & E & _ & ST & ->). cbn [skipn] in S. subst ops.
    destruct (ea_range _ _ _ _ _ _ E) as [RM RR].
    destruct (((sz =? 2) || (sz =? 4)) && imatch (t0 :: src ++ rest) (1 + length src) [PTuple a_regs]) eqn:I.
    - apply andb_prop in I. destruct I as [I1 I2]. apply imatch_last in I2. destruct I2 as (t & ER & I2). apply match_a in I2. destruct I2 as (n & A).
      apply (to_address_ok _ _ _ _ _ _ _ _ _ _ _ _ ER A (move_size_range sz) RM RR) in H2. destruct H2 as [-> ->].
      eexists _, ds. split; [|split; [apply items_fixed; exists sd; split; [reflexivity|exact ST]|reflexivity]].
      exists src, sm, sr, si. split; [exact E|]. left. exists t, n. split; [congruence|]. split; [lia|]. split; [exact A|]. reflexivity.
    - apply bind_ok in H2. destruct H2 as (s3 & [[[nx dm] dr] dd] & H & H2).
      apply (mode_sound _ _ _ _ Alt) in H; [|rewrite pc_referring; exact PC|apply zlen_nonneg|left; exact SZ].
      destruct H as (dst & rest2 & di & es & S & _ & E2 & A & ST2 & ->). rewrite past in S. subst rest.
      destruct (ea_range _ _ _ _ _ _ E2) as [RM2 RR2]. rewrite word_move, lift_bind in H2; try assumption; [|apply move_size_range].
      apply ret_ok in H2. destruct H2 as [H2 ->]. injection H2 as ->. apply (proj1 (items_referring _ _ _ _ _ _ _)) in ST2.
      eexists _, (ds ++ es). split; [|split; [apply items_fixed; eexists; split; [reflexivity|]|rewrite referring_app; reflexivity]].
      + exists src, sm, sr, si. split; [exact E|]. right. exists dst, dm, dr, di, rest2. split; [reflexivity|]. split; [discriminate|]. split; [exact E2|]. split; [exact A|reflexivity].
      + apply items_app. exists sd, ds, dd, es. repeat split; [exact ST|exact ST2].
  Qed.
  Lemma move_complete : forall ops items s, 0 <= pc s -> move_form true ops items -> delivers mc_move t0 ops s items.
  Proof.
    intros ops items s PC (src & sm & sr & si & E & F) s1 b. unfold mc_move. rewrite tok_first, ret_bind, D.
    destruct (ea_range _ _ _ _ _ _ E) as [RM RR].
    destruct F as [(t & n & -> & Z1 & A & ->)|(dst & dm & dr & di & rest & -> & NR & E2 & A & ->)].
    - rewrite bind_ok.
      assert (MC : forall s2 next m r sd, mc_mode (t0 :: src ++ [t]) 1 0 sz [] s = (s2, Ok (next, m, r, sd)) <->
        next = (1 + length src)%nat /\ m = sm /\ r = sr /\ exists ds, stored_items mc_p s 2 si sd ds /\ s2 = referring s ds).
      { intros. apply (mode_complete (t0 :: src ++ [t]) 1 0 sz Any s s2 next m r sd src [t] sm sr si); auto; try lia; [|exact Logic.I].
        cbn [no_plus]. eapply reg_not_mark; eauto. }
      assert (I : ((sz =? 2) || (sz =? 4)) && imatch (t0 :: src ++ [t]) (1 + length src) [PTuple a_regs] = true).
      { apply andb_true_intro. split; [destruct SZ as [ZZ|[ZZ|ZZ]]; lia|]. apply imatch_last. exists t. split; [reflexivity|]. apply match_a. eauto. }
      split.
      + intros (s2 & [[[next m] r] sd] & H & H2). apply MC in H. destruct H as (-> & -> & -> & ds & ST & ->). rewrite I in H2.
        apply (to_address_ok _ _ _ _ _ _ _ _ _ _ _ _ eq_refl A (move_size_range sz) RM RR) in H2. destruct H2 as [-> ->].
        exists ds. split; [|reflexivity]. apply items_fixed; eexists; split; [reflexivity|exact ST].
      + intros (ds & ST & ->). apply items_fixed in ST. destruct ST as (sd & -> & ST).
        exists (referring s ds), ((1 + length src)%nat, sm, sr, sd). split; [apply MC; eauto 7|]. rewrite I.
        apply (to_address_ok _ _ _ _ _ _ _ _ _ _ _ _ eq_refl A (move_size_range sz) RM RR). auto.
    - rewrite (NR eq_refl) in *. rewrite app_nil_r in *. clear NR rest. rewrite bind_ok.
      assert (MC : forall s2 next m r sd, mc_mode (t0 :: src ++ dst) 1 0 sz [] s = (s2, Ok (next, m, r, sd)) <->
        next = (1 + length src)%nat /\ m = sm /\ r = sr /\ exists ds, stored_items mc_p s 2 si sd ds /\ s2 = referring s ds).
      { intros. apply (mode_complete (t0 :: src ++ dst) 1 0 sz Any s s2 next m r sd src dst sm sr si); auto; try lia; [|exact Logic.I].
        rewrite <- (app_nil_r dst). eapply ea_no_plus; eauto. }
      assert (I : ((sz =? 2) || (sz =? 4)) && imatch (t0 :: src ++ dst) (1 + length src) [PTuple a_regs] = false).
      { destruct (imatch (t0 :: src ++ dst) (1 + length src) [PTuple a_regs]) eqn:X; [|apply andb_false_r].
        apply imatch_last in X. destruct X as (t & X & Y). rewrite (ea_not_a _ _ _ _ _ _ E2 A X) in Y. discriminate. }
      assert (MC2 : forall ds (sd : bytes) s3 next m r dd, mc_mode (t0 :: src ++ dst) (1 + length src) (zlen sd) sz not_alterable (referring s ds) = (s3, Ok (next, m, r, dd)) <->
        next = (1 + length src + length dst)%nat /\ m = dm /\ r = dr /\ exists es, stored_items mc_p s (2 + zlen sd) di dd es /\ s3 = referring (referring s ds) es).
      { intros. rewrite (mode_complete (t0 :: src ++ dst) (1 + length src) (zlen sd) sz Alt (referring s ds) s3 next m r dd dst [] dm dr di); auto.
        - split; intros (X1 & X2 & X3 & es & X4 & X5); (split; [exact X1|split; [exact X2|split; [exact X3|exists es; split; [eapply items_referring; exact X4|exact X5]]]]).
        - rewrite pc_referring. exact PC.
        - apply zlen_nonneg.
        - rewrite app_nil_r. apply past.
        - exact Logic.I. }
      destruct (ea_range _ _ _ _ _ _ E2) as [RM2 RR2]. split.
      + intros (s2 & [[[next m] r] sd] & H & H2). apply MC in H. destruct H as (-> & -> & -> & ds & ST & ->). rewrite I in H2.
        apply bind_ok in H2. destruct H2 as (s3 & [[[nx m] r] dd] & H & H2). apply MC2 in H. destruct H as (-> & -> & -> & es & ST2 & ->).
        rewrite word_move, lift_bind in H2; try assumption; [|apply move_size_range].
        apply ret_ok in H2. destruct H2 as [H2 ->]. injection H2 as ->.
        exists (ds ++ es). rewrite referring_app. split; [|reflexivity]. apply items_fixed. eexists. split; [reflexivity|].
        apply items_app. exists sd, ds, dd, es. auto.
      + intros (es & ST & ->). apply items_fixed in ST. destruct ST as (sd & -> & ST). apply items_app in ST.
        destruct ST as (sd1 & d1 & dd & d2 & -> & -> & ST1 & ST2).
        exists (referring s d1), ((1 + length src)%nat, sm, sr, sd1). split; [apply MC; eauto 7|]. rewrite I.
        apply bind_ok. exists (referring (referring s d1) d2), ((1 + length src + length dst)%nat, dm, dr, dd).
        split; [apply MC2; eauto 7|]. rewrite word_move, lift_bind; try assumption; [|apply move_size_range].
        rewrite referring_app. reflexivity.
  Qed.
End Move.

Lemma mode_then : forall B tokens start off sz c s (k : nat * Z * Z * bytes -> M B) s1 x ts rest m r items, 0 <= pc s -> 0 <= off -> size_ok sz \/ c = Ctl ->
  skipn start tokens = ts ++ rest -> no_plus rest -> ea true sz ts m r items -> allowed c m r ->
  bind (mc_mode tokens start off sz (black c)) k s = (s1, Ok x) <->
  exists b ds, stored_items mc_p s (2 + off) items b ds /\ k ((start + length ts)%nat, m, r, b) (referring s ds) = (s1, Ok x).
Proof.
  intros B tokens start off sz c s k s1 x ts rest m r items PC OF SZ S NP E A. rewrite bind_ok. split.
  - intros (s2 & [[[next m'] r'] b] & H & K). apply (mode_complete _ _ _ _ _ _ _ _ _ _ _ _ _ _ _ _ PC OF SZ S NP E A) in H.
    destruct H as (-> & -> & -> & ds & ST & ->). eauto.
  - intros (b & ds & ST & K). exists (referring s ds), ((start + length ts)%nat, m, r, b). split; [|exact K].
    apply (mode_complete _ _ _ _ _ _ _ _ _ _ _ _ _ _ _ _ PC OF SZ S NP E A). eauto 7.
Qed.

(** *** movea *)

Section Movea.
  Context (t0 : str) (sz : Z) (SZ : size_ok sz) (D : mc_s_dark t0 = (sz, move_size sz)).
  Definition movea_form (strict : bool) (ops : list str) (items : list item) : Prop :=
    exists src sm sr si t n, ea strict sz src sm sr si /\ ops = src ++ [t] /\ areg t n /\
      items = Fixed (move_size sz * 4096 + n * 512 + 64 + sm * 8 + sr) :: si.
  Lemma movea_sound : sound_for mc_movea t0 (movea_form false).
  Proof.
    intros ops s s1 b PC H. unfold mc_movea in H. rewrite tok_first, ret_bind, D in H.
    apply bind_ok in H. destruct H as (s2 & [[[next sm] sr] sd] & H & H2).
    apply (mode_sound _ _ _ _ Any) in H; [|exact PC|lia|left; exact SZ].
    destruct H as (src & rest & si & ds & S & -> & E & _ & ST & ->). cbn [skipn] in S. subst ops.
    destruct (ea_range _ _ _ _ _ _ E) as [RM RR].
    destruct (imatch (t0 :: src ++ rest) (1 + length src) [PTuple a_regs]) eqn:I; [|discriminate].
    apply imatch_last in I. destruct I as (t & ER & I). apply match_a in I. destruct I as (n & A).
    apply (to_address_ok _ _ _ _ _ _ _ _ _ _ _ _ ER A (move_size_range sz) RM RR) in H2. destruct H2 as [-> ->].
    eexists _, ds. split; [|split; [apply items_fixed; exists sd; split; [reflexivity|exact ST]|reflexivity]].
    exists src, sm, sr, si, t, n. split; [exact E|]. split; [congruence|]. split; [exact A|reflexivity].
  Qed.
  Lemma movea_complete : forall ops items s, 0 <= pc s -> movea_form true ops items -> delivers mc_movea t0 ops s items.
  Proof.
    intros ops items s PC (src & sm & sr & si & t & n & E & -> & A & ->) s1 b. unfold mc_movea. rewrite tok_first, ret_bind, D.
    destruct (ea_range _ _ _ _ _ _ E) as [RM RR].
    rewrite (mode_then _ (t0 :: src ++ [t]) 1 0 sz Any s _ s1 (Some b) src [t] sm sr si PC ltac:(lia) (or_introl SZ) eq_refl (reg_not_mark t n _ (or_introl A)) E Logic.I).
    assert (I : imatch (t0 :: src ++ [t]) (1 + length src) [PTuple a_regs] = true).
    { apply imatch_last. exists t. split; [reflexivity|]. apply match_a. eauto. }
    split.
    - intros (sd & ds & ST & H2). rewrite I in H2.
      apply (to_address_ok _ _ _ _ _ _ _ _ _ _ _ _ eq_refl A (move_size_range sz) RM RR) in H2. destruct H2 as [-> ->].
      exists ds. split; [|reflexivity]. apply items_fixed; eexists; split; [reflexivity|exact ST].
    - intros (ds & ST & ->). apply items_fixed in ST. destruct ST as (sd & -> & ST). exists sd, ds. split; [exact ST|]. rewrite I.
      apply (to_address_ok _ _ _ _ _ _ _ _ _ _ _ _ eq_refl A (move_size_range sz) RM RR). auto.
  Qed.
End Movea.

(** *** jmp, jsr and lea *)

Definition jump_form (strict : bool) (base : Z) (ops : list str) (items : list item) : Prop :=
  exists src sm sr si rest, ops = src ++ rest /\ (strict = true -> rest = []) /\ ea strict 4 src sm sr si /\ control sm sr /\
    items = Fixed (base + sm * 8 + sr) :: si.
Lemma jump_sound : forall t0 base, (64 | base) -> sound_for (mc_jump base) t0 (jump_form false base).
Proof.
  intros t0 base BA ops s s1 b PC H. unfold mc_jump in H.
  apply bind_ok in H. destruct H as (s2 & [[[next sm] sr] sd] & H & H2).
  apply (mode_sound _ _ _ _ Ctl) in H; [|exact PC|lia|right; reflexivity].
  destruct H as (src & rest & si & ds & S & -> & E & C & ST & ->). cbn [skipn] in S. subst ops.
  destruct (ea_range _ _ _ _ _ _ E) as [RM RR]. rewrite word_jump, lift_bind in H2 by assumption.
  apply ret_ok in H2. destruct H2 as [H2 ->]. injection H2 as ->.
  eexists _, ds. split; [|split; [apply items_fixed; exists sd; split; [reflexivity|exact ST]|reflexivity]].
  exists src, sm, sr, si, rest. split; [reflexivity|]. split; [discriminate|]. split; [eapply ea_any_size; eauto|]. split; [exact C|reflexivity].
Qed.
Lemma jump_complete : forall t0 base ops items s, (64 | base) -> 0 <= pc s -> jump_form true base ops items -> delivers (mc_jump base) t0 ops s items.
Proof.
  intros t0 base ops items s BA PC (src & sm & sr & si & rest & -> & NR & E & C & ->) s1 b. rewrite (NR eq_refl). clear NR rest.
  destruct (ea_range _ _ _ _ _ _ E) as [RM RR]. apply (ea_any_size _ _ 0) in E; [|exact C].
  unfold mc_jump.
  rewrite (mode_then _ (t0 :: src ++ []) 1 0 0 Ctl s _ s1 (Some b) src [] sm sr si PC ltac:(lia) (or_intror eq_refl) eq_refl Logic.I E C).
  rewrite word_jump by assumption. split.
  - intros (sd & ds & ST & H2). rewrite lift_bind in H2. apply ret_ok in H2. destruct H2 as [H2 ->]. injection H2 as ->.
    exists ds. split; [|reflexivity]. apply items_fixed; eexists; split; [reflexivity|exact ST].
  - intros (ds & ST & ->). apply items_fixed in ST. destruct ST as (sd & -> & ST). exists sd, ds. split; [exact ST|]. reflexivity.
Qed.

Definition lea_form (strict : bool) (ops : list str) (items : list item) : Prop :=
  exists src sm sr si t n, ea strict 4 src sm sr si /\ control sm sr /\ ops = src ++ [t] /\ areg t n /\
    items = Fixed (0x41C0 + n * 512 + sm * 8 + sr) :: si.
Lemma lea_sound : forall t0, sound_for mc_lea t0 (lea_form false).
Proof.
  intros t0 ops s s1 b PC H. unfold mc_lea in H.
  apply bind_ok in H. destruct H as (s2 & [[[next sm] sr] sd] & H & H2).
  apply (mode_sound _ _ _ _ Ctl) in H; [|exact PC|lia|right; reflexivity].
  destruct H as (src & rest & si & ds & S & -> & E & C & ST & ->). cbn [skipn] in S. subst ops.
  destruct (ea_range _ _ _ _ _ _ E) as [RM RR].
  destruct (imatch (t0 :: src ++ rest) (1 + length src) [PTuple a_regs]) eqn:I; [|discriminate].
  apply imatch_last in I. destruct I as (t & ER & I). apply match_a in I. destruct I as (n & A).
  rewrite (tok_last _ _ _ _ ER), ret_bind, (reg_value t n) in H2 by auto.
  rewrite lift_bind, word_lea, lift_bind in H2; try assumption; [|eapply reg_range; eauto].
  remember (0x41C0 + n * 512 + sm * 8 + sr) as w eqn:W.
  apply ret_ok in H2. destruct H2 as [H2 ->]. injection H2 as ->.
  exists (Fixed w :: si), ds. split; [|split; [apply items_fixed; exists sd; split; [reflexivity|exact ST]|reflexivity]].
  exists src, sm, sr, si, t, n. split; [exact E|]. split; [exact C|]. split; [congruence|]. split; [exact A|congruence].
Qed.
Lemma lea_complete : forall t0 ops items s, 0 <= pc s -> lea_form true ops items -> delivers mc_lea t0 ops s items.
Proof.
  intros t0 ops items s PC (src & sm & sr & si & t & n & E & C & -> & A & ->) s1 b. unfold mc_lea.
  destruct (ea_range _ _ _ _ _ _ E) as [RM RR].
  rewrite (mode_then _ (t0 :: src ++ [t]) 1 0 4 Ctl s _ s1 (Some b) src [t] sm sr si PC ltac:(lia) (or_intror eq_refl) eq_refl (reg_not_mark t n _ (or_introl A)) E C).
  assert (I : imatch (t0 :: src ++ [t]) (1 + length src) [PTuple a_regs] = true).
  { apply imatch_last. exists t. split; [reflexivity|]. apply match_a. eauto. }
  assert (W : forall sd ds, (let! t := tok_at (t0 :: src ++ [t]) (1 + length src) in let! r := lift (mc_reg t) in
      let! w := mc_build 0x41C0 [((11, 9), r); ((5, 3), sm); ((2, 0), sr)] in ret (Some (w ++ sd))) (referring s ds) =
    (referring s ds, Ok (Some (msb 2 (0x41C0 + n * 512 + sm * 8 + sr) ++ sd)))).
  { intros sd ds. rewrite (tok_last _ _ _ t eq_refl), ret_bind, (reg_value t n), lift_bind by auto.
    rewrite word_lea, lift_bind; try assumption; [reflexivity|]. eapply reg_range; eauto. }
  remember (0x41C0 + n * 512 + sm * 8 + sr) as w eqn:WE.
  split.
  - intros (sd & ds & ST & H2). rewrite I in H2. rewrite W in H2. injection H2 as <- <-.
    exists ds. split; [|reflexivity]. apply items_fixed; eexists; split; [reflexivity|exact ST].
  - intros (ds & ST & ->). apply items_fixed in ST. destruct ST as (sd & -> & ST). exists sd, ds. split; [exact ST|]. rewrite I. apply W.
Qed.

(** *** Instructions with an immediate operand *)

Lemma imm_bytes : forall p s off sz x b ds, size_ok sz -> stored_items p s off [Val (imm sz) x] b ds -> zlen b = sz + sz mod 2.
Proof.
  intros p s off sz x b ds SZ H. apply (proj1 (items_one _ _ _ _ _ _)) in H. inversion H; subst; rewrite msb_zlen;
    (destruct SZ as [-> | [-> | ->]]; reflexivity).
Qed.
Lemma imm_cases : forall t0 ops p, imatch (t0 :: ops) 1 [PFun mc_is_immediate; p] = true <->
  exists x t, ops = [#"#" ++ x; t] /\ x <> [] /\ imatch1 p t = true.
Proof.
  intros t0 ops p. rewrite imatch_cons. split.
  - intros F. inversion F as [|? ? ? ? F1 F2]; subst. inversion F2 as [|? ? ? ? F3 F4]; subst. inversion F4; subst.
    apply match_imm in F1. destruct F1 as (x & -> & N). eauto.
  - intros (x & t & -> & N & P). constructor; [apply match_imm; eauto|]. constructor; [exact P|constructor].
Qed.

Section Imm.
  Context (t0 : str) (base : Z) (status : bool) (sz : Z) (SZ : size_ok sz) (D : mc_s_light t0 = (sz, op_size sz)) (BA : (256 | base)).

  Definition imm_form (strict : bool) (ops : list str) (items : list item) : Prop :=
    (exists x dst dm dr di rest, ops = (#"#" ++ x) :: dst ++ rest /\ (strict = true -> rest = []) /\ x <> [] /\
       ea strict sz dst dm dr di /\ alterable dm dr /\ (status = true -> no_status strict dst) /\
       items = Fixed (base + op_size sz * 64 + dm * 8 + dr) :: Val (imm sz) x :: di) \/
    (status = true /\ exists x t, ops = [#"#" ++ x; t] /\ x <> [] /\
       ((the_ccr strict t /\ items = [Fixed (base + 0x3C); Val imm8 x]) \/
        (the_sr strict t /\ items = [Fixed (base + 0x7C); Val word16 x]))).

  Lemma status_ok : forall x t k sl s s1 b, size_ok k -> imm k = sl -> forall w,
    bind (tok_at [t0; #"#" ++ x; t] 1) (fun t => bind (mc_packer (skipn 1 t) k 0) (fun b => bind (mc_build w []) (fun c => ret (Some (c ++ b))))) s = (s1, Ok (Some b)) <->
    exists ds, stored_items mc_p s 0 [Fixed w; Val sl x] b ds /\ s1 = referring s ds.
  Proof.
    intros x t k sl s s1 b K <- w. change (tok_at [t0; #"#" ++ x; t] 1) with (@ret str (#"#" ++ x)). rewrite ret_bind.
    change (skipn 1 (#"#" ++ x)) with x. rewrite packer_then by exact K. rewrite word_plain. split.
    - intros (bs & ds & ST & H). rewrite lift_bind in H. apply ret_ok in H. destruct H as [H ->]. injection H as ->.
      exists ds. split; [|reflexivity]. apply items_fixed; eexists; split; [reflexivity|exact ST].
    - intros (ds & ST & ->). apply items_fixed in ST. destruct ST as (bs & -> & ST). exists bs, ds. split; [exact ST|reflexivity].
  Qed.

  (** The general form, when neither CCR nor SR has been recognised. *)
  Definition plain_imm (tokens : list str) : M (option bytes) :=
    match unbound_match tokens 1 [PFun mc_is_immediate] with
    | Some index =>
        let! t0 := tok_at tokens 0 in
        let '(op_size, s) := mc_s_light t0 in
        let! t := tok_at tokens 1 in
        let! b := mc_packer (skipn 1 t) op_size 0 in
        let! dst := mc_mode tokens index (op_size + op_size mod 2) op_size not_alterable in
        let '(_, dst_m, dst_xn, dst_data) := dst in
        let! w := mc_build base [((7, 6), s); ((5, 3), dst_m); ((2, 0), dst_xn)] in
        ret (Some (w ++ b ++ dst_data))
    | None => ret None
    end.
  Lemma plain_eq : forall x ops, x <> [] -> plain_imm (t0 :: (#"#" ++ x) :: ops) =
    let! b := mc_packer x sz 0 in
    let! dst := mc_mode (t0 :: (#"#" ++ x) :: ops) 2 (sz + sz mod 2) sz not_alterable in
    let '(_, dst_m, dst_xn, dst_data) := dst in
    let! w := mc_build base [((7, 6), op_size sz); ((5, 3), dst_m); ((2, 0), dst_xn)] in
    ret (Some (w ++ b ++ dst_data)).
  Proof.
    intros x ops N. unfold plain_imm. rewrite unbound_eq by discriminate. cbn [skipn match_all].
    rewrite (hash_yes x N). cbn [andb length plus]. rewrite tok_first, ret_bind, D. reflexivity.
  Qed.
  Lemma size_even : 0 <= sz + sz mod 2.
  Proof. destruct SZ as [-> | [-> | ->]]; cbn; lia. Qed.
  Lemma plain_sound : forall ops s s1 b, 0 <= pc s -> plain_imm (t0 :: ops) s = (s1, Ok (Some b)) ->
    exists x dst dm dr di rest ds, ops = (#"#" ++ x) :: dst ++ rest /\ x <> [] /\ ea false sz dst dm dr di /\ alterable dm dr /\
      stored_items mc_p s 0 (Fixed (base + op_size sz * 64 + dm * 8 + dr) :: Val (imm sz) x :: di) b ds /\ s1 = referring s ds.
  Proof.
    intros ops s s1 b PC H.
    assert (I : exists x rest, ops = (#"#" ++ x) :: rest /\ x <> []).
    { unfold plain_imm in H. rewrite unbound_eq in H by discriminate. cbn [skipn] in H.
      destruct (match_all imatch1 [PFun mc_is_immediate] ops) eqn:M; [|discriminate]. apply match_cons in M.
      destruct M as (t & l & -> & M & _). apply match_imm in M. destruct M as (x & -> & N). eauto. }
    destruct I as (x & rest & -> & N). rewrite plain_eq in H by exact N.
    apply packer_then in H; [|exact SZ]. destruct H as (bi & ds & ST & H).
    apply bind_ok in H. destruct H as (s2 & [[[nx dm] dr] dd] & H & H2).
    apply (mode_sound _ _ _ _ Alt) in H; [|rewrite pc_referring; exact PC|apply size_even|left; exact SZ].
    destruct H as (dst & rest2 & di & es & S & _ & E2 & A & ST2 & ->). cbn [skipn] in S. subst rest.
    destruct (ea_range _ _ _ _ _ _ E2) as [RM2 RR2]. rewrite word_imm, lift_bind in H2; try assumption; [|apply op_size_range].
    apply ret_ok in H2. destruct H2 as [H2 ->]. injection H2 as ->. apply (proj1 (items_referring _ _ _ _ _ _ _)) in ST2.
    exists x, dst, dm, dr, di, rest2, (ds ++ es). split; [reflexivity|]. split; [exact N|]. split; [exact E2|]. split; [exact A|].
    rewrite referring_app. split; [|reflexivity]. apply items_fixed. eexists. split; [reflexivity|].
    change (Val (imm sz) x :: di) with ([Val (imm sz) x] ++ di). apply items_app. exists bi, ds, dd, es.
    split; [reflexivity|]. split; [reflexivity|]. split; [exact ST|]. rewrite (imm_bytes _ _ _ _ _ _ _ SZ ST). exact ST2.
  Qed.
  Lemma plain_complete : forall x dst dm dr di s s1 b, 0 <= pc s -> x <> [] -> ea true sz dst dm dr di -> alterable dm dr ->
    plain_imm (t0 :: (#"#" ++ x) :: dst) s = (s1, Ok (Some b)) <->
    exists ds, stored_items mc_p s 0 (Fixed (base + op_size sz * 64 + dm * 8 + dr) :: Val (imm sz) x :: di) b ds /\ s1 = referring s ds.
  Proof.
    intros x dst dm dr di s s1 b PC N E A. rewrite plain_eq by exact N. rewrite packer_then by exact SZ.
    destruct (ea_range _ _ _ _ _ _ E) as [RM RR].
    assert (MC : forall ds bi, bind (mc_mode (t0 :: (#"#" ++ x) :: dst) 2 (sz + sz mod 2) sz not_alterable) (fun d =>
        let '(_, dst_m, dst_xn, dst_data) := d in
        bind (mc_build base [((7, 6), op_size sz); ((5, 3), dst_m); ((2, 0), dst_xn)]) (fun w => ret (Some (w ++ bi ++ dst_data)))) (referring s ds) = (s1, Ok (Some b)) <->
      exists dd es, stored_items mc_p s (2 + (sz + sz mod 2)) di dd es /\ b = msb 2 (base + op_size sz * 64 + dm * 8 + dr) ++ bi ++ dd /\ s1 = referring (referring s ds) es).
    { intros ds bi.
      rewrite (mode_then _ (t0 :: (#"#" ++ x) :: dst) 2 (sz + sz mod 2) sz Alt (referring s ds) _ s1 (Some b) dst [] dm dr di); auto.
      - rewrite word_imm; try assumption; [|apply op_size_range]. split.
        + intros (dd & es & ST & H2). rewrite lift_bind in H2. apply ret_ok in H2. destruct H2 as [H2 ->]. injection H2 as ->.
          exists dd, es. split; [eapply items_referring; eauto|]. split; reflexivity.
        + intros (dd & es & ST & -> & ->). exists dd, es. split; [eapply items_referring; eauto|]. reflexivity.
      - rewrite pc_referring. exact PC.
      - apply size_even.
      - cbn [skipn]. rewrite app_nil_r. reflexivity.
      - exact Logic.I. }
    split.
    - intros (bi & ds & ST & H). apply MC in H. destruct H as (dd & es & ST2 & -> & ->). exists (ds ++ es). rewrite referring_app.
      split; [|reflexivity]. apply items_fixed. eexists. split; [reflexivity|].
      change (Val (imm sz) x :: di) with ([Val (imm sz) x] ++ di). apply items_app. exists bi, ds, dd, es.
      split; [reflexivity|]. split; [reflexivity|]. split; [exact ST|]. rewrite (imm_bytes _ _ _ _ _ _ _ SZ ST). exact ST2.
    - intros (es & ST & ->). apply items_fixed in ST. destruct ST as (bs & -> & ST).
      change (Val (imm sz) x :: di) with ([Val (imm sz) x] ++ di) in ST. apply items_app in ST.
      destruct ST as (bi & d1 & dd & d2 & -> & -> & ST1 & ST2). exists bi, d1. split; [exact ST1|]. apply MC.
      exists dd, d2. rewrite (imm_bytes _ _ _ _ _ _ _ SZ ST1) in ST2. split; [exact ST2|]. split; [reflexivity|apply referring_app].
  Qed.
  Lemma imm_eq : forall tokens, mc_immediate base status tokens =
    if status && imatch tokens 1 [PFun mc_is_immediate; PStr #"CCR"] then
      let! t := tok_at tokens 1 in let! b := mc_packer (skipn 1 t) 1 0 in
      let! w := mc_build (base + 0x3C) [] in ret (Some (w ++ b))
    else if status && imatch tokens 1 [PFun mc_is_immediate; PStr #"SR"] then
      let! t := tok_at tokens 1 in let! b := mc_packer (skipn 1 t) 2 0 in
      let! w := mc_build (base + 0x7C) [] in ret (Some (w ++ b))
    else plain_imm tokens.
  Proof. reflexivity. Qed.

  Lemma imm_sound : sound_for (mc_immediate base status) t0 (imm_form false).
  Proof.
    intros ops s s1 b PC H. rewrite imm_eq in H.
    destruct (status && imatch (t0 :: ops) 1 [PFun mc_is_immediate; PStr #"CCR"]) eqn:C1;
      [|destruct (status && imatch (t0 :: ops) 1 [PFun mc_is_immediate; PStr #"SR"]) eqn:C2].
    - apply andb_prop in C1. destruct C1 as [ST C1]. apply imm_cases in C1. destruct C1 as (x & t & -> & N & M). apply match_ccr in M.
      apply (status_ok x t 1 imm8) in H; [|left; reflexivity|reflexivity]. destruct H as (ds & S & ->).
      eexists _, ds. split; [right; split; [exact ST|]; exists x, t; split; [reflexivity|]; split; [exact N|]; left; split; [exact M|reflexivity]|].
      split; [exact S|reflexivity].
    - apply andb_prop in C2. destruct C2 as [ST C2]. apply imm_cases in C2. destruct C2 as (x & t & -> & N & M). apply match_sr in M.
      rewrite ST in C1. cbn [andb] in C1.
      assert (NR : lower t <> #"r").
      { intros R. assert (T : imatch [t0; #"#" ++ x; t] 1 [PFun mc_is_immediate; PStr #"CCR"] = true).
        { apply imm_cases. exists x, t. split; [reflexivity|]. split; [exact N|]. apply match_ccr. right. auto. }
        congruence. }
      destruct M as [M|M]; [|contradiction].
      apply (status_ok x t 2 word16) in H; [|right; left; reflexivity|reflexivity]. destruct H as (ds & S & ->).
      eexists _, ds. split; [right; split; [exact ST|]; exists x, t; split; [reflexivity|]; split; [exact N|]; right; split; [exact M|reflexivity]|].
      split; [exact S|reflexivity].
    - apply plain_sound in H; [|exact PC]. destruct H as (x & dst & dm & dr & di & rest & ds & -> & N & E & A & S & ->).
      eexists _, ds. split; [left; exists x, dst, dm, dr, di, rest|split; [exact S|reflexivity]].
      split; [reflexivity|]. split; [discriminate|]. split; [exact N|]. split; [exact E|]. split; [exact A|]. split; [|reflexivity].
      intros _. unfold no_status. discriminate.
  Qed.
  Lemma imm_complete : forall ops items s, 0 <= pc s -> imm_form true ops items -> delivers (mc_immediate base status) t0 ops s items.
  Proof.
    intros ops items s PC [(x & dst & dm & dr & di & rest & -> & NR & N & E & A & NS & ->)|(ST & x & t & -> & N & F)] s1 b; rewrite imm_eq.
    - rewrite (NR eq_refl). clear NR rest. rewrite app_nil_r.
      assert (OFF : forall p l, (forall t, imatch1 p t = true -> In (lower t) l) -> incl l [#"ccr"; #"sr"; #"c"; #"r"; #"s"] ->
        status && imatch (t0 :: (#"#" ++ x) :: dst) 1 [PFun mc_is_immediate; p] = false).
      { intros p l P L. destruct status; [|reflexivity]. cbn [andb].
        destruct (imatch (t0 :: (#"#" ++ x) :: dst) 1 [PFun mc_is_immediate; p]) eqn:C; [|reflexivity].
        apply imm_cases in C. destruct C as (x' & t & X & _ & M). injection X as _ ->.
        destruct (NS eq_refl eq_refl t eq_refl). apply L. apply P. exact M. }
      rewrite (OFF (PStr #"CCR") [#"ccr"; #"c"; #"r"]).
      + rewrite (OFF (PStr #"SR") [#"sr"; #"s"; #"r"]).
        * apply plain_complete; assumption.
        * intros t M. apply match_sr in M. destruct M as [[M|[_ M]]|M]; rewrite M; vm_compute; tauto.
        * intros t [<-|[<-|[<-|[]]]]; vm_compute; tauto.
      + intros t M. apply match_ccr in M. destruct M as [M|[_ [M|M]]]; rewrite M; vm_compute; tauto.
      + intros t [<-|[<-|[<-|[]]]]; vm_compute; tauto.
    - rewrite ST. cbn [andb]. destruct F as [[[C|[C _]] ->]|[[C|[C _]] ->]]; try discriminate C.
      + replace (imatch [t0; #"#" ++ x; t] 1 [PFun mc_is_immediate; PStr #"CCR"]) with true.
        2:{ symmetry. apply imm_cases. exists x, t. split; [reflexivity|]. split; [exact N|]. apply match_ccr. left. exact C. }
        apply (status_ok x t 1 imm8); [left; reflexivity|reflexivity].
      + replace (imatch [t0; #"#" ++ x; t] 1 [PFun mc_is_immediate; PStr #"CCR"]) with false.
        2:{ destruct (imatch [t0; #"#" ++ x; t] 1 [PFun mc_is_immediate; PStr #"CCR"]) eqn:X; [|reflexivity].
            apply imm_cases in X. destruct X as (x' & t' & X & _ & M). injection X as _ <-. apply match_ccr in M.
            destruct M as [M|[_ [M|M]]]; rewrite C in M; discriminate. }
        replace (imatch [t0; #"#" ++ x; t] 1 [PFun mc_is_immediate; PStr #"SR"]) with true.
        2:{ symmetry. apply imm_cases. exists x, t. split; [reflexivity|]. split; [exact N|]. apply match_sr. left. left. exact C. }
        apply (status_ok x t 2 word16); [right; left; reflexivity|reflexivity].
  Qed.
End Imm.

(** *** Branches *)

Lemma here_two : forall s, pc s + 2 = pc s + 2 + 0. Proof. intros; lia. Qed.
Lemma there_two : forall s, pc s + 2 = pc s + 0 + 2. Proof. intros; lia. Qed.
Lemma word_then : forall x s s1 w b, 0 <= pc s ->
  bind (parse_integer_or_label mc_p (LabelData x 2 16 (pc s + 2) 2 2 None None None) false) (fun v =>
    bind (lift (Ok (msb 2 w))) (fun w => bind (lift (pack_be16u [Some v])) (fun b => ret (Some (w ++ b))))) s = (s1, Ok (Some b)) <->
  exists ds, stored_items mc_p s 0 [Fixed w; Val branch16 x] b ds /\ s1 = referring s ds.
Proof.
  intros x s s1 w b PC. rewrite here_two.
  rewrite (bind_ext _ _ _ _ (fun v => bind (lift (pack_be16u [Some v])) (fun b => ret (Some (msb 2 w ++ b))))) by reflexivity.
  rewrite (slot_then _ branch16 x false s 2 (fun v => pack_be16u [Some v]) (fun b => ret (Some (msb 2 w ++ b)))); [|cbn; lia| |apply packs_half; reflexivity].
  - split.
    + intros (bs & ds & ST & H). apply ret_ok in H. destruct H as [H ->]. injection H as ->. exists ds. split; [|reflexivity]. apply items_fixed; eexists; split; [reflexivity|exact ST].
    + intros (ds & ST & ->). apply items_fixed in ST. destruct ST as (bs & -> & ST). exists bs, ds. split; [exact ST|reflexivity].
  - cbn [base_of branch16 sl_from sl_signed]. replace (pc s + 2 + 0 =? 0) with false by lia. reflexivity.
Qed.

Definition branch_form (strict : bool) (sz c : Z) (ops : list str) (items : list item) : Prop :=
  exists x, ops = [x] /\ value strict x /\
    items = if sz =? 1 then [Val (branch8 (0x6000 + c * 256)) x] else [Fixed (0x6000 + c * 256); Val branch16 x].
Section Branch.
  Context (t0 : str) (sz k c : Z) (SZ : sz = 1 \/ sz = 2) (D : mc_s_dark t0 = (sz, k)) (C : mc_cond (skipn 1 t0) = Ok c) (RC : 0 <= c < 16).
  Lemma bcc_eq : forall x s s1 b, imatch1 (PFun mc_is_displacement) x = true -> 0 <= pc s ->
    mc_bcc [t0; x] s = (s1, Ok (Some b)) <->
    exists ds, stored_items mc_p s 0 (if sz =? 1 then [Val (branch8 (0x6000 + c * 256)) x] else [Fixed (0x6000 + c * 256); Val branch16 x]) b ds /\ s1 = referring s ds.
  Proof.
    intros x s s1 b V PC. unfold mc_bcc.
    replace (imatch [t0; x] 1 [PFun mc_is_displacement]) with true by (symmetry; apply imatch_cons; constructor; [exact V|constructor]).
    rewrite tok_first, ret_bind, C, lift_bind, D. change (tok_at [t0; x] 1) with (@ret str x). rewrite ret_bind, get_bind.
    destruct SZ as [-> | ->].
    - change (1 =? 1) with true. cbv iota. rewrite there_two. unfold mc_build.
      rewrite (slot_then _ (branch8 (0x6000 + c * 256)) x false s 0 (fun v => pack_bits_be16u 0x6000 [((11, 8), c); ((7, 0), v)]) (fun b => ret (Some b))); [|cbn; lia| |apply packs_branch8; exact RC].
      + split.
        * intros (bs & ds & ST & H). apply ret_ok in H. destruct H as [H ->]. injection H as ->. eauto.
        * intros (ds & ST & ->). exists b, ds. split; [exact ST|reflexivity].
      + cbn [base_of branch8 sl_from sl_signed]. replace (pc s + 0 + 2 =? 0) with false by lia. reflexivity.
    - change (2 =? 1) with false. change (2 =? 2) with true. cbv iota. rewrite word_branch by exact RC. apply word_then. exact PC.
  Qed.
  Lemma bcc_sound : sound_for mc_bcc t0 (branch_form false sz c).
  Proof.
    intros ops s s1 b PC H.
    assert (I : exists x, ops = [x] /\ imatch1 (PFun mc_is_displacement) x = true).
    { unfold mc_bcc in H. destruct (imatch (t0 :: ops) 1 [PFun mc_is_displacement]) eqn:I; [|discriminate].
      apply imatch_cons in I. inversion I as [|? x ? ? V F]; subst. inversion F; subst. eauto. }
    destruct I as (x & -> & V). apply bcc_eq in H; [|exact V|exact PC]. destruct H as (ds & ST & ->).
    eexists _, ds. split; [|split; [exact ST|reflexivity]]. exists x. split; [reflexivity|]. split; [apply match_value; exact V|reflexivity].
  Qed.
  Lemma bcc_complete : forall ops items s, 0 <= pc s -> branch_form true sz c ops items -> delivers mc_bcc t0 ops s items.
  Proof.
    intros ops items s PC (x & -> & V & ->) s1 b. apply bcc_eq; [|exact PC]. apply v_yes. exact V.
  Qed.
End Branch.

Definition loop_form (strict : bool) (c : Z) (ops : list str) (items : list item) : Prop :=
  exists t n x, ops = [t; x] /\ dreg t n /\ value strict x /\ items = [Fixed (0x50C8 + c * 256 + n); Val branch16 x].
Section Loop.
  Context (t0 : str) (c : Z) (C : mc_cond (skipn 2 t0) = Ok c) (RC : 0 <= c < 16).
  Lemma dbcc_eq : forall t n x s s1 b, dreg t n -> imatch1 (PFun mc_is_displacement) x = true -> 0 <= pc s ->
    mc_dbcc [t0; t; x] s = (s1, Ok (Some b)) <->
    exists ds, stored_items mc_p s 0 [Fixed (0x50C8 + c * 256 + n); Val branch16 x] b ds /\ s1 = referring s ds.
  Proof.
    intros t n x s s1 b DR V PC. unfold mc_dbcc.
    replace (imatch [t0; t; x] 1 [PTuple d_regs; PFun mc_is_displacement]) with true
      by (symmetry; apply imatch_cons; constructor; [eapply d_yes; eauto|constructor; [exact V|constructor]]).
    rewrite tok_first, ret_bind, C, lift_bind. change (tok_at [t0; t; x] 1) with (@ret str t). rewrite ret_bind.
    rewrite (reg_value t n), lift_bind by auto. change (tok_at [t0; t; x] 2) with (@ret str x). rewrite ret_bind, get_bind.
    rewrite word_loop; [apply word_then; exact PC|exact RC|eapply reg_range; eauto].
  Qed.
  Lemma dbcc_sound : sound_for mc_dbcc t0 (loop_form false c).
  Proof.
    intros ops s s1 b PC H.
    assert (I : exists t x, ops = [t; x] /\ imatch1 (PTuple d_regs) t = true /\ imatch1 (PFun mc_is_displacement) x = true).
    { unfold mc_dbcc in H. destruct (imatch (t0 :: ops) 1 [PTuple d_regs; PFun mc_is_displacement]) eqn:I; [|discriminate].
      apply imatch_cons in I. inversion I as [|? t ? ? V F]; subst. inversion F as [|? x ? ? V2 F2]; subst. inversion F2; subst. eauto. }
    destruct I as (t & x & -> & T & V). apply match_d in T. destruct T as (n & T).
    apply (dbcc_eq t n) in H; [|exact T|exact V|exact PC]. destruct H as (ds & ST & ->).
    eexists _, ds. split; [|split; [exact ST|reflexivity]]. exists t, n, x. split; [reflexivity|]. split; [exact T|]. split; [apply match_value; exact V|reflexivity].
  Qed.
  Lemma dbcc_complete : forall ops items s, 0 <= pc s -> loop_form true c ops items -> delivers mc_dbcc t0 ops s items.
  Proof.
    intros ops items s PC (t & n & x & -> & T & V & ->) s1 b. apply dbcc_eq; [exact T| |exact PC]. apply v_yes. exact V.
  Qed.
End Loop.
