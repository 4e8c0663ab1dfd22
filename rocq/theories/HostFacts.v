(** How a run depends on the files of the host. *)
From Verif Require Import Py PyFacts Utils Tokenizer State Assembler Mos6502 Mc68000 Mips32 Lr35902 Z80 Thumb Ppc I8086 X86
  Elf Platform ElfPlat SpecHost.

Section Rel.
  Context (rel : forall A, M A -> M A -> Prop).
  Context (rel_refl : forall A (m : M A), rel A m m).
  Context (rel_bind : forall A B (m1 m2 : M A) (k1 k2 : A -> M B), rel A m1 m2 -> (forall a, rel B (k1 a) (k2 a)) ->
    rel B (bind m1 k1) (bind m2 k2)).
  Context (files : forall A, (str -> option A) -> (str -> option A) -> Prop).
  Context (rel_open : forall A f g n, files A f g -> rel A (open_file f n) (open_file g n)).
  Definition hosts (e1 e2 : env) : Prop :=
    files _ (file_text e1) (file_text e2) /\ files _ (file_bytes e1) (file_bytes e2) /\ files _ (file_csv e1) (file_csv e2) /\
    files _ (file_json e1) (file_json e2) /\ files _ (file_image e1) (file_image e2).
  Definition relt (f g : list str -> M unit) : Prop := forall t, rel _ (f t) (g t).

  Lemma rel_iter : forall A (f g : A -> M unit) l, (forall a, rel _ (f a) (g a)) -> rel _ (iter f l) (iter g l).
  Proof. intros A f g l H. induction l; cbn [iter]; auto. Qed.

  Ltac rbind := repeat first [apply rel_refl | apply rel_open; assumption | apply rel_bind; [|intros ?]
    | match goal with |- rel _ (if ?b then _ else _) _ => destruct b end].

  Lemma rel_tiles : forall e1 e2 ok cv, hosts e1 e2 -> relt (directive_tiles e1 ok cv) (directive_tiles e2 ok cv).
  Proof. intros e1 e2 ok cv (H1 & H2 & H3 & H4 & H5) t. unfold directive_tiles. rbind. Qed.

  Lemma rel_run : forall c1 c2 asm1 asm2 d t, c_p c1 = c_p c2 -> hosts (c_env c1) (c_env c2) ->
    (forall x, rel _ (asm1 x) (asm2 x)) -> rel _ (run_directive c1 asm1 d t) (run_directive c2 asm2 d t).
  Proof.
    intros c1 c2 asm1 asm2 d t EP (H1 & H2 & H3 & H4 & H5) HA.
    destruct d; cbn [run_directive]; rewrite ?EP; try apply rel_refl.
    - unfold directive_include. rbind. apply HA.
    - unfold directive_incbin. rbind.
    - unfold directive_inccsv. rbind.
    - unfold directive_inccsv. rbind.
    - unfold directive_incjson. rbind.
  Qed.

  Lemma rel_directive : forall c1 c2 asm1 asm2 t, twins relt c1 c2 -> hosts (c_env c1) (c_env c2) ->
    (forall x, rel _ (asm1 x) (asm2 x)) -> rel _ (directive_assemble c1 asm1 t) (directive_assemble c2 asm2 t).
  Proof.
    intros c1 c2 asm1 asm2 t (EP & _ & _ & _ & D) HE HA. unfold directive_assemble. rewrite <- EP.
    apply rel_bind; [apply rel_refl|]. intros s. apply rel_bind; [apply rel_refl|]. intros t0. cbv zeta.
    specialize (D (if case_sensitive (c_p c1) then skipn 1 t0 else upper (skipn 1 t0))).
    destruct (dget str_eqb (c_directives c1) _) as [d1|], (dget str_eqb (c_directives c2) _) as [d2|].
    - destruct d1; try (injection D as <-; apply rel_run; auto).
      destruct d2; try discriminate. cbn [run_directive]. apply D.
    - destruct d1; discriminate.
    - discriminate.
    - apply rel_refl.
  Qed.

  Lemma rel_instruction : forall c1 c2 fuel l pl t, c_p c1 = c_p c2 -> c_instructions c1 = c_instructions c2 ->
    instruction_assemble c1 fuel l pl t = instruction_assemble c2 fuel l pl t.
  Proof.
    intros [p1 e1 i1 d1 a1 b1] [p2 e2 i2 d2 a2 b2] fuel l pl t E1 E2. cbn in E1, E2. subst. reflexivity.
  Qed.
  Lemma rel_label : forall c1 c2 t, c_p c1 = c_p c2 -> label_assemble c1 t = label_assemble c2 t.
  Proof. intros c1 c2 t E. unfold label_assemble. rewrite E. reflexivity. Qed.

  Lemma rel_statement : forall c1 c2 fuel asm1 asm2 x, twins relt c1 c2 -> hosts (c_env c1) (c_env c2) ->
    (forall x, rel _ (asm1 x) (asm2 x)) -> rel _ (statement_assemble c1 fuel asm1 x) (statement_assemble c2 fuel asm2 x).
  Proof.
    intros c1 c2 fuel asm1 asm2 x T HE HA. unfold statement_assemble. pose proof T as (EP & EI & _). destruct (s_kind x).
    all: first [rewrite (rel_instruction c1 c2) by assumption; apply rel_refl | rewrite (rel_label c1 c2) by assumption; apply rel_refl
               | apply rel_directive; assumption].
  Qed.

  Lemma rel_assemble : forall c1 c2 fuel x, twins relt c1 c2 -> hosts (c_env c1) (c_env c2) ->
    rel _ (assemble c1 fuel x) (assemble c2 fuel x).
  Proof.
    intros c1 c2 fuel x T HE. revert x.
    induction fuel as [|f IH]; intros x; cbn [assemble]; (apply rel_bind; [apply rel_refl|]); intros ss;
      (apply rel_bind; [|intros _; unfold assemble_tail; rewrite (proj1 T); apply rel_refl]);
      apply rel_iter; intros a; apply rel_statement; auto.
  Qed.
  Lemma rel_file : forall c1 c2 fuel n, twins relt c1 c2 -> hosts (c_env c1) (c_env c2) ->
    rel _ (assemble_file c1 fuel n) (assemble_file c2 fuel n).
  Proof.
    intros c1 c2 fuel n T HE. unfold assemble_file. apply rel_bind; [apply rel_open; apply HE|].
    intros a. apply rel_assemble; assumption.
  Qed.
  Lemma rel_link : forall c1 c2 lk, twins relt c1 c2 -> link c1 lk = link c2 lk.
  Proof. intros c1 c2 lk (E1 & _ & E3 & E4 & _). unfold link. rewrite E1, E3, E4. reflexivity. Qed.

  (** The tables. *)
  Definition drel (d1 d2 : directive) : Prop :=
    match d1, d2 with D_custom f, D_custom g => relt f g | _, _ => d1 = d2 end.
  Definition orel (o1 o2 : option directive) : Prop :=
    match o1, o2 with Some d1, Some d2 => drel d1 d2 | None, None => True | _, _ => False end.
  Lemma drel_refl : forall d, drel d d.
  Proof. intros d. destruct d; try reflexivity. intros t. apply rel_refl. Qed.
  Lemma table_twins : forall p l1 l2 t1 t2, (forall k, orel (dget str_eqb t1 k) (dget str_eqb t2 k)) ->
    Forall2 (fun a b => fst a = fst b /\ drel (snd a) (snd b)) l1 l2 ->
    forall k, orel (dget str_eqb (register_all p t1 l1) k) (dget str_eqb (register_all p t2 l2) k).
  Proof.
    intros p l1 l2 t1 t2 H F. revert t1 t2 H. unfold register_all.
    induction F as [|[n1 d1] [n2 d2] l1 l2 [E D] F IH]; intros t1 t2 H; cbn [fold_left]; [exact H|].
    apply IH. intros k. cbn [fst snd] in E, D. subst n2. unfold register.
    destruct (str_eqb k (if case_sensitive p then n1 else upper n1)) eqn:EK.
    - apply str_eqb_eq in EK. subst k. rewrite !(dget_dset_same str_eqb str_eqb_eq). exact D.
    - assert (N : k <> (if case_sensitive p then n1 else upper n1)).
      { intros ->. rewrite str_eqb_refl in EK. discriminate. }
      rewrite !(dget_dset_other str_eqb str_eqb_eq) by exact N. apply H.
  Qed.
  Lemma orel_twin : forall o1 o2, orel o1 o2 -> twin relt o1 o2.
  Proof.
    intros [x|] [y|] H; cbn [orel] in H; try contradiction; try reflexivity.
    destruct x; cbn [drel] in H; try (subst y; exact eq_refl). destruct y; try discriminate. exact H.
  Qed.
  Lemma mk_twins : forall p e1 e2 ops d1 d2 pre post, Forall2 (fun a b => fst a = fst b /\ drel (snd a) (snd b)) d1 d2 ->
    twins relt (mk_cfg p e1 ops d1 pre post) (mk_cfg p e2 ops d2 pre post).
  Proof.
    intros p e1 e2 ops d1 d2 pre post F. unfold twins, mk_cfg. cbn [c_p c_instructions c_pre_link c_post_link c_directives].
    repeat split. intros k.
    assert (B : forall k, orel (dget str_eqb (register_all p [] internal_directives) k)
                               (dget str_eqb (register_all p [] internal_directives) k)).
    { intros k'. unfold orel. destruct (dget _ _ k'); [apply drel_refl|exact I]. }
    exact (orel_twin _ _ (table_twins p d1 d2 _ _ B F k)).
  Qed.

  Lemma shipped_twins : forall C e1 e2, In C shipped -> hosts e1 e2 ->
    twins relt (C e1) (C e2) /\ c_env (C e1) = e1 /\ c_env (C e2) = e2.
  Proof.
    intros C e1 e2 I H. split; [|repeat destruct I as [<-|I]; try destruct I; split; reflexivity].
    repeat destruct I as [<-|I]; try destruct I; apply mk_twins;
      repeat (constructor; [split; [reflexivity|first [apply drel_refl | cbn [snd drel]; apply rel_tiles; exact H]]|]); constructor.
  Qed.
End Rel.

Lemma more_bind : forall A B (m1 m2 : M A) (k1 k2 : A -> M B), as_with_more m1 m2 -> (forall a, as_with_more (k1 a) (k2 a)) ->
  as_with_more (bind m1 k1) (bind m2 k2).
Proof.
  intros A B m1 m2 k1 k2 H K s. unfold bind. destruct (H s) as [E|E].
  - left. destruct (m1 s) as [s1 [a|e]]; cbn [snd] in E; [discriminate|]. cbn [snd]. congruence.
  - rewrite E. destruct (m2 s) as [s1 [a|e]]; [apply K|right; reflexivity].
Qed.
Lemma more_open : forall A (f g : str -> option A) n, has_all f g -> as_with_more (open_file f n) (open_file g n).
Proof.
  intros A f g n H s. unfold open_file. destruct (f n) as [a|] eqn:E; [right; rewrite (H _ _ E); reflexivity|left; reflexivity].
Qed.
Lemma more_refl : forall A (m : M A), as_with_more m m.
Proof. intros A m s. right. reflexivity. Qed.

Lemma succ_bind : forall A B (m1 m2 : M A) (k1 k2 : A -> M B), same_success m1 m2 -> (forall a, same_success (k1 a) (k2 a)) ->
  same_success (bind m1 k1) (bind m2 k2).
Proof.
  intros A B m1 m2 k1 k2 H K s s1 s2 b1 b2. unfold bind. intros E1 E2.
  destruct (m1 s) as [t1 [a1|x1]] eqn:F1; [|discriminate]. destruct (m2 s) as [t2 [a2|x2]] eqn:F2; [|discriminate].
  destruct (H _ _ _ _ _ F1 F2) as [-> ->]. exact (K _ _ _ _ _ _ E1 E2).
Qed.
Lemma succ_open : forall A (f g : str -> option A) n, agreed f g -> same_success (open_file f n) (open_file g n).
Proof.
  intros A f g n H s s1 s2 a1 a2. unfold open_file.
  destruct (f n) as [a|] eqn:E; [|discriminate]. destruct (g n) as [b|] eqn:G; [|discriminate].
  unfold ret. intros X Y. injection X as <- <-. injection Y as <- <-. split; [reflexivity|]. exact (H _ _ _ E G).
Qed.
Lemma succ_refl : forall A (m : M A), same_success m m.
Proof. intros A m s s1 s2 a1 a2 E1 E2. rewrite E1 in E2. injection E2 as <- <-. auto. Qed.
