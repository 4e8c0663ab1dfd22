(** Tokens of the 68000 syntax. *)
From Coq Require Import Lia.
From Verif Require Import Py PyFacts Utils Tokenizer State Assembler SpecUtils SpecExec SpecLink
  UtilsFacts SpecCpu Instr CpuFacts WordFacts FitFacts Mc68000 SpecM68.
Local Open Scope Z_scope.

(** ** Tokens *)

Lemma lower_digit : forall c d, In d ["0"%char; "1"%char; "2"%char; "3"%char; "4"%char; "5"%char; "6"%char; "7"%char] ->
  lower_chr c = d -> c = d.
Proof.
  intros c d I E. cbn [In] in I.
  repeat (destruct I as [<- | I]; [destruct c as [[] [] [] [] [] [] [] []]; (reflexivity || discriminate E)|]). destruct I.
Qed.
Lemma reg_shape : forall t n, dreg t n \/ areg t n -> exists c d, t = [c; d] /\
  In d ["0"%char; "1"%char; "2"%char; "3"%char; "4"%char; "5"%char; "6"%char; "7"%char] /\ mc_reg t = Ok n /\ 0 <= n < 8.
Proof.
  intros t n H.
  assert (X : exists c' d, lower t = [c'; d] /\ In d ["0"%char; "1"%char; "2"%char; "3"%char; "4"%char; "5"%char; "6"%char; "7"%char] /\
    (forall c, mc_reg [c; d] = Ok n) /\ 0 <= n < 8).
  { unfold dreg, areg, d_names, a_names in H. cbn [In] in H.
    destruct H as [H|H]; repeat (destruct H as [H|H]; [injection H as <- <-; eexists; eexists; (split; [reflexivity|]);
      (split; [cbn [In]; tauto|]); (split; [intros c; vm_compute; reflexivity|lia])|]); destruct H. }
  destruct X as (c' & d & L & I & R & N). destruct t as [|c [|d' [|e t]]]; try discriminate L.
  cbn [lower map] in L. injection L as _ L. apply lower_digit in L; [|exact I]. subst d'.
  exists c, d. auto.
Qed.
Lemma reg_value : forall t n, dreg t n \/ areg t n -> mc_reg t = Ok n.
Proof. intros t n H. destruct (reg_shape t n H) as (c & d & _ & _ & R & _). exact R. Qed.
Lemma reg_range : forall t n, dreg t n \/ areg t n -> 0 <= n < 8.
Proof. intros t n H. destruct (reg_shape t n H) as (c & d & _ & _ & _ & R). exact R. Qed.
Lemma in_fst : forall (l : list (str * Z)) t, In t (map fst l) <-> exists n, In (t, n) l.
Proof.
  intros l t. rewrite in_map_iff. split.
  - intros ([a n] & E & I). cbn [fst] in E. subst a. eauto.
  - intros (n & I). exists (t, n). auto.
Qed.
Lemma match_d : forall t, imatch1 (PTuple d_regs) t = true <-> exists n, dreg t n.
Proof. intros t. rewrite match_tuple by reflexivity. apply (in_fst d_names). Qed.
Lemma match_a : forall t, imatch1 (PTuple a_regs) t = true <-> exists n, areg t n.
Proof. intros t. rewrite match_tuple by reflexivity. apply (in_fst a_names). Qed.
Lemma not_true : forall b (P : Prop), (b = true <-> P) -> (b = false <-> ~ P).
Proof. intros b P H. rewrite <- H. destruct b; split; intros X; try discriminate; try reflexivity. destruct X. reflexivity. Qed.

Lemma match_open : forall t, imatch1 (PStr #"(") t = true <-> t = #"(".
Proof. intros t. apply match_mark; [left; vm_compute; reflexivity|reflexivity]. Qed.
Lemma match_close : forall t, imatch1 (PStr #")") t = true <-> t = #")".
Proof. intros t. apply match_mark; [left; vm_compute; reflexivity|reflexivity]. Qed.
Lemma match_plus : forall t, imatch1 (PStr #"+") t = true <-> t = #"+".
Proof. intros t. apply match_mark; [left; vm_compute; reflexivity|reflexivity]. Qed.
Lemma match_minus : forall t, imatch1 (PStr #"-") t = true <-> t = #"-".
Proof. intros t. apply match_mark; [left; vm_compute; reflexivity|reflexivity]. Qed.

(** A string pattern of several characters also matches each of them. *)
Lemma match_str : forall w t, imatch1 (PStr w) t = true <-> lower t = lower w \/ exists c, In c w /\ lower t = [lower_chr c].
Proof.
  intros w t. cbn [imatch1]. rewrite orb_true_iff, existsb_exists. split.
  - intros [E|(c & I & E)]; apply str_eqb_eq in E; apply upper_eq_lower in E; [auto|].
    right. exists c. split; [exact I|exact E].
  - intros [E|(c & I & E)]; [left|right; exists c; split; [exact I|]]; apply str_eqb_eq; apply upper_eq_lower; exact E.
Qed.
Lemma lower_dot : forall t, lower t = #"." <-> t = #".".
Proof.
  intros t. split; [|intros ->; reflexivity]. destruct t as [|c [|d t]]; try discriminate. intros E. cbn [lower map] in E.
  injection E as E. f_equal. destruct c as [[] [] [] [] [] [] [] []]; (reflexivity || discriminate E).
Qed.
Lemma match_pc : forall t, imatch1 (PStr #"PC") t = true <-> the_pc false t.
Proof.
  intros t. rewrite match_str. unfold the_pc. split.
  - intros [E|(c & [<-|[<-|[]]] & E)]; [left; exact E|right; split; [reflexivity|left; exact E]|right; split; [reflexivity|right; exact E]].
  - intros [E|[_ [E|E]]]; [left; exact E|right; exists "P"%char|right; exists "C"%char]; (split; [vm_compute; tauto|exact E]).
Qed.
Lemma match_w : forall t, imatch1 (PStr #".W") t = true <-> suffix false "w" t.
Proof.
  intros t. rewrite match_str. unfold suffix. split.
  - intros [E|(c & [<-|[<-|[]]] & E)]; [left; exact E|right; split; [reflexivity|left; apply lower_dot; exact E]|right; split; [reflexivity|right; exact E]].
  - intros [E|[_ [E|E]]]; [left; exact E|right; exists "."%char; split; [vm_compute; tauto|rewrite E; reflexivity]|right; exists "W"%char; (split; [vm_compute; tauto|exact E])].
Qed.
Lemma match_l : forall t, imatch1 (PStr #".L") t = true <-> suffix false "l" t.
Proof.
  intros t. rewrite match_str. unfold suffix. split.
  - intros [E|(c & [<-|[<-|[]]] & E)]; [left; exact E|right; split; [reflexivity|left; apply lower_dot; exact E]|right; split; [reflexivity|right; exact E]].
  - intros [E|[_ [E|E]]]; [left; exact E|right; exists "."%char; split; [vm_compute; tauto|rewrite E; reflexivity]|right; exists "L"%char; (split; [vm_compute; tauto|exact E])].
Qed.
Lemma match_ccr : forall t, imatch1 (PStr #"CCR") t = true <-> the_ccr false t.
Proof.
  intros t. rewrite match_str. unfold the_ccr. split.
  - intros [E|(c & [<-|[<-|[<-|[]]]] & E)]; [left; exact E|right; split; [reflexivity|left; exact E]|right; split; [reflexivity|left; exact E]|right; split; [reflexivity|right; exact E]].
  - intros [E|[_ [E|E]]]; [left; exact E|right; exists "C"%char|right; exists "R"%char]; (split; [vm_compute; tauto|exact E]).
Qed.
Lemma match_sr : forall t, imatch1 (PStr #"SR") t = true <-> the_sr false t \/ lower t = #"r".
Proof.
  intros t. rewrite match_str. unfold the_sr. split.
  - intros [E|(c & [<-|[<-|[]]] & E)]; [left; left; exact E|left; right; split; [reflexivity|exact E]|right; exact E].
  - intros [[E|[_ E]]|E]; [left; exact E|right; exists "S"%char|right; exists "R"%char]; (split; [vm_compute; tauto|exact E]).
Qed.

Lemma hash_iff : forall t, starts_with #"#" t = true <-> exists x, t = #"#" ++ x.
Proof.
  intros [|c t]; cbn [list_ascii_of_string starts_with]; split; intros H; try discriminate.
  - destruct H as (x & H). discriminate.
  - rewrite andb_true_r in H. apply Ascii.eqb_eq in H. subst c. exists t. reflexivity.
  - destruct H as (x & H). injection H as -> ->. reflexivity.
Qed.
Lemma match_imm : forall t, imatch1 (PFun mc_is_immediate) t = true <-> exists x, t = #"#" ++ x /\ x <> [].
Proof.
  intros t. cbn [imatch1]. unfold mc_is_immediate. rewrite andb_true_iff, hash_iff, Nat.ltb_lt. split.
  - intros (L & x & ->). exists x. split; [reflexivity|]. intros ->. cbn in L. lia.
  - intros (x & -> & N). split; [|eauto]. destruct x; [congruence|]. cbn. lia.
Qed.
Lemma lower_paren : forall t c, In c ["("%char; ")"%char] -> lower t = [c] <-> t = [c].
Proof.
  intros t c I. split.
  - destruct t as [|x [|y t]]; try discriminate. intros E. cbn [lower map] in E. injection E as E. f_equal.
    destruct I as [<- | [<- | []]]; destruct x as [[] [] [] [] [] [] [] []]; (reflexivity || discriminate E).
  - intros ->. destruct I as [<- | [<- | []]]; reflexivity.
Qed.
Lemma match_value : forall t, imatch1 (PFun mc_is_displacement) t = true <-> value false t.
Proof.
  intros t. cbn [imatch1]. unfold mc_is_displacement, value. rewrite andb_true_iff, !negb_true_iff.
  rewrite (not_true _ _ (hash_iff t)).
  assert (X : str_in (lower t) (d_regs ++ a_regs ++ [#"("; #")"]) = true <->
    (exists n, dreg t n) \/ (exists n, areg t n) \/ t = #"(" \/ t = #")").
  { rewrite str_in_In, !in_app_iff. change d_regs with (map fst d_names). change a_regs with (map fst a_names).
    rewrite !in_fst. fold (dreg t). fold (areg t). cbn [In].
    rewrite <- (lower_paren t "(") by (cbn; auto). rewrite <- (lower_paren t ")") by (cbn; auto).
    change #"(" with ["("%char]. change #")" with [")"%char].
    assert (S : forall a b : str, a = b <-> b = a) by (split; auto).
    rewrite (S ["("%char]), (S [")"%char]). tauto. }
  rewrite (not_true _ _ X). split.
  - intros [A B]. repeat split; try (intros ? H; apply A; eauto; fail); try (intros H; apply A; auto; fail); try discriminate.
    intros x H. apply B. eauto.
  - intros (A1 & A2 & A3 & A4 & A5 & _). split.
    + intros [(n & H)|[(n & H)|[H|H]]]; [eapply A1; eauto|eapply A2; eauto|auto|auto].
    + intros (x & H). eapply A5; eauto.
Qed.
Lemma value_lax : forall b t, value b t -> value false t.
Proof. intros b t (A1 & A2 & A3 & A4 & A5 & _). repeat split; auto; discriminate. Qed.
Lemma pc_lax : forall b t, the_pc b t -> the_pc false t.
Proof. intros b t [H|[_ H]]; [left|right]; auto. Qed.
Lemma suffix_lax : forall b c t, suffix b c t -> suffix false c t.
Proof. intros b c t [H|[_ H]]; [left|right]; auto. Qed.

(** ** Suffixes *)

Lemma starts_with_iff : forall p s, starts_with p s = true <-> exists x, s = p ++ x.
Proof.
  induction p as [|a p IH]; intros [|b s]; cbn [starts_with app]; split; intros H; try discriminate; eauto.
  - destruct H as (x & H). discriminate.
  - apply andb_prop in H. destruct H as [H1 H2]. apply Ascii.eqb_eq in H1. apply IH in H2. destruct H2 as (x & ->). subst. eauto.
  - destruct H as (x & H). injection H as -> ->. rewrite Ascii.eqb_refl. apply IH. eauto.
Qed.
Lemma ends_with_iff : forall p s, ends_with p s = true <-> exists x, s = x ++ p.
Proof.
  intros p s. unfold ends_with. rewrite starts_with_iff. split; intros (x & H).
  - exists (rev x). rewrite <- (rev_involutive s), H, rev_app_distr, rev_involutive. reflexivity.
  - exists (rev x). rewrite H. apply rev_app_distr.
Qed.
Lemma lower_app_inv : forall t a b, lower t = a ++ b -> exists x y, t = x ++ y /\ lower x = a /\ lower y = b.
Proof.
  intros t a. revert t. induction a as [|c a IH]; intros t b H.
  - exists [], t. auto.
  - destruct t as [|d t]; [discriminate|]. cbn [lower map app] in H. injection H as H1 H2.
    destruct (IH t b H2) as (x & y & -> & E1 & E2). exists (d :: x), y. cbn [lower map app]. split; [reflexivity|].
    split; [|exact E2]. f_equal; [exact H1|exact E1].
Qed.
Lemma lower_app : forall a b, lower (a ++ b) = lower a ++ lower b.
Proof. intros. apply map_app. Qed.
Lemma lower_length : forall t, length (lower t) = length t.
Proof. intros. apply map_length. Qed.
Lemma lower_ends : forall c t, ends_with ["."%char; c] (lower t) = true <->
  exists x suf, t = x ++ suf /\ lower suf = ["."%char; c].
Proof.
  intros c t. rewrite ends_with_iff. split.
  - intros (a & H). apply lower_app_inv in H. destruct H as (x & y & -> & _ & E). eauto.
  - intros (x & suf & -> & E). exists (lower x). rewrite lower_app, E. reflexivity.
Qed.
Lemma drop_last_app : forall A n (x y : list A), length y = n -> drop_last n (x ++ y) = x.
Proof.
  intros A n x y L. unfold drop_last. rewrite app_length, L. replace (length x + n - n)%nat with (length x) by lia.
  rewrite firstn_app, firstn_all, Nat.sub_diag. cbn [firstn]. apply app_nil_r.
Qed.
Lemma suf_two : forall c suf, lower suf = ["."%char; c] -> length suf = 2%nat.
Proof. intros c suf E. rewrite <- lower_length, E. reflexivity. Qed.
Lemma suffix_of : forall c x suf, lower suf = ["."%char; c] -> ends_with ["."%char; c] (lower (x ++ suf)) = true /\
  drop_last 2 (x ++ suf) = x /\ drop_last 2 (lower (x ++ suf)) = lower x.
Proof.
  intros c x suf E. split; [apply lower_ends; eauto|]. split; [apply drop_last_app; eapply suf_two; eauto|].
  rewrite lower_app. apply drop_last_app. rewrite E. reflexivity.
Qed.
Lemma last_chr : forall c d x suf, lower suf = ["."%char; c] -> c <> d -> ends_with ["."%char; d] (lower (x ++ suf)) = false.
Proof.
  intros c d x suf E N. destruct (ends_with ["."%char; d] (lower (x ++ suf))) eqn:H; [|reflexivity].
  apply ends_with_iff in H. destruct H as (y & H). rewrite lower_app, E in H.
  apply (f_equal (@rev ascii)) in H. rewrite !rev_app_distr in H. cbn [rev app] in H. injection H as H _. congruence.
Qed.

Lemma dreg_lower : forall t n, dreg t n <-> In (lower t, n) d_names. Proof. reflexivity. Qed.
Lemma lower_idem : forall t, lower (lower t) = lower t.
Proof. intros t. rewrite <- (lower_upper (lower t)), upper_lower. apply lower_upper. Qed.
Lemma reg_lower : forall t n, (dreg (lower t) n <-> dreg t n) /\ (areg (lower t) n <-> areg t n).
Proof. intros t n. unfold dreg, areg. rewrite lower_idem. tauto. Qed.
Lemma xreg_lower : forall t n k, xreg (lower t) n k <-> xreg t n k.
Proof. intros t n k. unfold xreg. destruct (reg_lower t n) as [A B]. rewrite A, B. reflexivity. Qed.
Lemma reg_names : forall t, str_in t (d_regs ++ a_regs) = true -> lower t = t /\ exists n k, xreg t n k.
Proof.
  intros t H. rewrite str_in_In, in_app_iff in H.
  assert (L : lower t = t).
  { assert (X : forallb (fun t => str_eqb (lower t) t) (d_regs ++ a_regs) = true) by (vm_compute; reflexivity).
    rewrite forallb_forall in X. apply str_eqb_eq. apply X. apply in_app_iff. exact H. }
  split; [exact L|]. unfold xreg, dreg, areg. rewrite L.
  change d_regs with (map fst d_names) in H. change a_regs with (map fst a_names) in H. rewrite !in_fst in H.
  destruct H as [(n & H)|(n & H)]; eauto 6.
Qed.
Lemma names_reg : forall t n k, xreg t n k -> str_in (lower t) (d_regs ++ a_regs) = true.
Proof.
  intros t n k H. rewrite str_in_In, in_app_iff. change d_regs with (map fst d_names). change a_regs with (map fst a_names).
  rewrite !in_fst. destruct H as [[H _]|[H _]]; eauto.
Qed.
Lemma xreg_ends : forall c t n k, xreg t n k -> ends_with ["."%char; c] (lower t) = false.
Proof.
  intros c t n k H.
  assert (R : dreg t n \/ areg t n) by (destruct H as [[H _]|[H _]]; auto).
  destruct (ends_with ["."%char; c] (lower t)) eqn:E; [|reflexivity].
  apply lower_ends in E. destruct E as (x & suf & E & L).
  destruct (reg_shape t n R) as (c1 & d & T & I & _).
  rewrite T in E. destruct suf as [|s1 [|s2 [|s3 suf]]]; try discriminate L.
  destruct x as [|x1 x]; [|destruct x as [|? [|? ?]]; discriminate E]. cbn [app] in E. injection E as -> ->.
  cbn [lower map] in L. injection L as L _.
  unfold dreg, areg in H. subst t. unfold xreg, dreg, areg in H. cbn [lower map] in H. rewrite L in H.
  destruct H as [[H _]|[H _]]; cbn [In d_names a_names] in H;
    repeat (destruct H as [H|H]; [discriminate H|]); destruct H.
Qed.
Lemma xreg_kind : forall t n k, xreg t n k -> (if starts_with #"d" (lower t) then 0 else 1) = k /\ mc_reg t = Ok n /\ 0 <= n < 8 /\ 0 <= k < 2.
Proof.
  intros t n k H. assert (R : dreg t n \/ areg t n) by (destruct H as [[H _]|[H _]]; auto).
  split; [|split; [apply reg_value; exact R|split; [eapply reg_range; exact R|destruct H as [[_ ->]|[_ ->]]; lia]]].
  destruct H as [[H ->]|[H ->]]; unfold dreg, areg in H; cbn [In d_names a_names] in H;
    repeat (destruct H as [H|H]; [injection H as H _; rewrite <- H; reflexivity|]); destruct H.
Qed.
Lemma index_match : forall t, imatch1 (PFun mc_is_indexed_reg) t = true <-> exists w, index t w.
Proof.
  intros t. cbn [imatch1]. unfold mc_is_indexed_reg. split.
  - destruct (ends_with #".w" (lower t)) eqn:E1; [|destruct (ends_with #".l" (lower t)) eqn:E2].
    + apply lower_ends in E1. destruct E1 as (x & suf & -> & L). destruct (suffix_of _ x suf L) as (_ & _ & ->).
      intros H. apply reg_names in H. destruct H as (_ & n & k & H). eexists. eapply ix_word; [|exact L].
      apply xreg_lower. exact H.
    + apply lower_ends in E2. destruct E2 as (x & suf & -> & L). destruct (suffix_of _ x suf L) as (_ & _ & ->).
      intros H. apply reg_names in H. destruct H as (_ & n & k & H). eexists. eapply ix_long; [|exact L].
      apply xreg_lower. exact H.
    + intros H. apply reg_names in H. destruct H as (L & n & k & H). eexists. eapply ix_bare; eauto.
  - intros (w & H). destruct H as [r n k suf X L|r n k suf X L|r n k X L].
    + destruct (suffix_of _ r suf L) as (E & _ & ->). change #".w" with ["."%char; "w"%char]. rewrite E. eapply names_reg; eauto.
    + change #".w" with ["."%char; "w"%char]. rewrite (last_chr "l" "w" r suf L) by discriminate.
      destruct (suffix_of _ r suf L) as (E & _ & ->). change #".l" with ["."%char; "l"%char]. rewrite E. eapply names_reg; eauto.
    + change #".w" with ["."%char; "w"%char]. change #".l" with ["."%char; "l"%char].
      rewrite !(xreg_ends _ _ _ _ X). rewrite <- L. eapply names_reg; eauto.
Qed.
Lemma index_value : forall t w, index t w -> exists k n z, mc_indexed_reg t = Ok (k, n, z) /\
  w = k * 32768 + n * 4096 + z * 2048 /\ 0 <= k < 2 /\ 0 <= n < 8 /\ 0 <= z < 2.
Proof.
  intros t w H. unfold mc_indexed_reg. destruct H as [r n k suf X L|r n k suf X L|r n k X L].
  - destruct (suffix_of _ r suf L) as (E & -> & _). change #".w" with ["."%char; "w"%char]. rewrite E.
    destruct (xreg_kind _ _ _ X) as (K & -> & R1 & R2). cbn [rbind]. exists k, n, 0.
    split; [|lia]. do 3 f_equal. rewrite <- K. destruct (reg_shape r n) as (c & d & -> & _); [destruct X as [[? _]|[? _]]; auto|].
    cbn [app lower map]. reflexivity.
  - change #".w" with ["."%char; "w"%char]. rewrite (last_chr "l" "w" r suf L) by discriminate.
    destruct (suffix_of _ r suf L) as (E & -> & _). change #".l" with ["."%char; "l"%char]. rewrite E.
    destruct (xreg_kind _ _ _ X) as (K & -> & R1 & R2). cbn [rbind]. exists k, n, 1.
    split; [|lia]. do 3 f_equal. rewrite <- K. destruct (reg_shape r n) as (c & d & -> & _); [destruct X as [[? _]|[? _]]; auto|].
    cbn [app lower map]. reflexivity.
  - change #".w" with ["."%char; "w"%char]. change #".l" with ["."%char; "l"%char]. rewrite !(xreg_ends _ _ _ _ X).
    destruct (xreg_kind _ _ _ X) as (K & -> & R1 & R2). cbn [rbind]. exists k, n, 0. rewrite K. split; [reflexivity|lia].
Qed.

Lemma match_abs_w : forall t, imatch1 (PFun mc_is_absolute_w) t = true <->
  value false t /\ exists x suf, t = x ++ suf /\ lower suf = #".w".
Proof.
  intros t. cbn [imatch1]. unfold mc_is_absolute_w. rewrite andb_true_iff.
  change (mc_is_displacement t) with (imatch1 (PFun mc_is_displacement) t). rewrite match_value.
  change #".w" with ["."%char; "w"%char]. rewrite lower_ends. reflexivity.
Qed.
Lemma match_abs_l : forall t, imatch1 (PFun mc_is_absolute_l) t = true <->
  value false t /\ exists x suf, t = x ++ suf /\ lower suf = #".l".
Proof.
  intros t. cbn [imatch1]. unfold mc_is_absolute_l. rewrite andb_true_iff.
  change (mc_is_displacement t) with (imatch1 (PFun mc_is_displacement) t). rewrite match_value.
  change #".l" with ["."%char; "l"%char]. rewrite lower_ends. reflexivity.
Qed.
