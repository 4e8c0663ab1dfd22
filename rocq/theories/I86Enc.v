(** The 8086 model encodes instructions as its decoder reads them. *)
From Coq Require Import Lia.
From Verif Require Import Py PyFacts Utils Tokenizer State Assembler Instr I8086.
From Verif Require Import SpecUtils SpecSubst SpecExec SpecCpu UtilsFacts CpuFacts WordFacts MosFacts MipsFacts LrFacts M68Facts.
From Verif Require Import SpecI86 I86Sem I86Facts I86Rows I86Read I86Check.
Local Open Scope Z_scope.

(** ** The evaluation does not look into values *)
Section Natural.
  Context {A B : Type} (f : A -> B) (ta : A -> Z) (tb : B -> Z).
  Definition omap (o : opd A) : opd B :=
    match o with
    | R8 n => R8 n | R16 n => R16 n | SR n => SR n | Mem m d => Mem m (option_map f d) | Dir a => Dir (f a) | Val a => Val (f a) | Lit n => Lit n
    end.
  Definition tagged (o : opd A) : Prop := match o with Val a => tb (f a) = ta a | _ => True end.
  Definition vmap (v : option (fld * A)) : option (fld * B) := option_map (fun '(k, a) => (k, f a)) v.
  Definition mmap (m : smod A) : smod B := Smod (sm_mod m) (sm_reg m) (sm_rm m) (option_map f (sm_disp m)).
  Definition stmap (s : step A) : step B :=
    match s with Skip => Skip | Fail => Fail | Wild => Wild | Next p v m => Next p (vmap v) (mmap m) end.
  Definition rmap (rs : list (fld * A)) : list (fld * B) := map (fun '(k, a) => (k, f a)) rs.
  Definition outmap (o : outcome A) : outcome B :=
    match o with Skipped r => Skipped (rmap r) | Failed => Failed | Unknown => Unknown | Done r p v => Done (rmap r) p (vmap v) end.

  Lemma build_nat : forall m, sbuild (mmap m) = stmap (sbuild m).
  Proof. intros [[a|] [b|] [c|] [d|]]; reflexivity. Qed.
  Lemma build_if_nat : forall m, sbuild_if (mmap m) = stmap (sbuild_if m).
  Proof. intros m. unfold sbuild_if. cbn [mmap sm_reg]. destruct (sm_reg m); [apply build_nat|reflexivity]. Qed.
  Lemma step_nat : forall a first o m, tagged o -> sstep tb a first (omap o) (mmap m) = stmap (sstep ta a first o m).
  Proof.
    intros a first o m T.
    assert (RG : forall n, sreg first n (mmap m) = stmap (sreg first n m)).
    { intros n. unfold sreg. destruct first; [reflexivity|]. apply (build_nat (Smod (sm_mod m) (Some n) (sm_rm m) (sm_disp m))). }
    assert (ME : forall r d, smem r (option_map f d) (mmap m) = stmap (smem r d m)).
    { intros r d. unfold smem. destruct d as [d|]; cbn [option_map].
      - apply (build_if_nat (Smod (Some 2) (sm_reg m) (Some r) (Some d))).
      - apply (build_if_nat (Smod (Some 0) (sm_reg m) (Some r) None)). }
    assert (RM : forall n, sbuild_if (Smod (Some 3) (sm_reg (mmap m)) (Some n) (sm_disp (mmap m))) = stmap (sbuild_if (Smod (Some 3) (sm_reg m) (Some n) (sm_disp m)))).
    { intros n. apply (build_if_nat (Smod (Some 3) (sm_reg m) (Some n) (sm_disp m))). }
    destruct a, o; cbn [sstep omap regname]; try reflexivity; try apply RG; try apply ME; try apply RM;
      try (match goal with |- match ?x with _ => _ end = _ => destruct x; [|reflexivity] end; match goal with |- context [str_eqb ?x ?y] => destruct (str_eqb x y); reflexivity end).
    - pose proof (build_nat (Smod (Some 0) (sm_reg m) (Some 6) (sm_disp m))) as BN. unfold mmap in *. cbn [sm_mod sm_reg sm_rm sm_disp] in *. rewrite BN.
      destruct (sbuild (Smod (Some 0) (sm_reg m) (Some 6) (sm_disp m))) as [| | |p [v|] q]; reflexivity.
    - cbn [tagged] in T. rewrite T. destruct (ta a =? 3); reflexivity.
  Qed.
  Lemma missing_nat : forall a, @smissing B a = stmap (@smissing A a). Proof. intros []; reflexivity. Qed.
  Lemma tl_map : forall os, tl (map omap os) = map omap (tl os). Proof. intros []; reflexivity. Qed.
  Lemma row_nat : forall args first os m p v, Forall tagged os ->
    srow tb args first (map omap os) (mmap m) p (vmap v) = outmap (srow ta args first os m p v).
  Proof.
    induction args as [|a args IH]; intros first os m p v T; cbn [srow]; [reflexivity|].
    assert (E : match map omap os with [] => smissing a | o :: _ => sstep tb a first o (mmap m) end =
                stmap (match os with [] => smissing a | o :: _ => sstep ta a first o m end)).
    { destruct os as [|o os]; cbn [map]; [apply missing_nat|]. apply step_nat. inversion T; auto. }
    rewrite E. assert (TT : Forall tagged (tl os)) by (destruct T; [constructor|assumption]).
    destruct (match os with [] => smissing a | o :: _ => sstep ta a first o m end) as [| | |p' v' m']; cbn [stmap]; try reflexivity.
    - destruct v as [[k x]|]; reflexivity.
    - rewrite tl_map. destruct v as [[k x]|], v' as [[k' x']|], p' as [|z p']; cbn [vmap option_map]; try reflexivity;
        first [apply (IH false (tl os) m' _ (Some (k, x)) TT) | apply (IH false (tl os) m' _ (Some (k', x')) TT) | apply (IH false (tl os) m' _ None TT)].
  Qed.
  Lemma start_nat : forall base, @start B base = (fst (@start A base), mmap (snd (@start A base))).
  Proof. intros base. unfold start. destruct (base >? 255); reflexivity. Qed.
  Lemma rows_nat : forall rows os, Forall tagged os -> srows tb rows (map omap os) = outmap (srows ta rows os).
  Proof.
    induction rows as [|[base args] rows IH]; intros os T; [reflexivity|]. cbn [srows]. rewrite start_nat. specialize (IH os T).
    destruct (@start A base) as [b m]. cbn [fst snd]. destruct args as [|a args]; [destruct os; reflexivity|].
    destruct os as [|o os]; [exact IH|]. rewrite IH. cbn [map]. change (omap o :: map omap os) with (map omap (o :: os)).
    pose proof (row_nat (a :: args) true (o :: os) m [] None T) as RN. cbn [vmap option_map map] in RN. cbn [map]. rewrite RN.
    destruct (srow ta (a :: args) true (o :: os) m [] None) as [r| | |r p v]; cbn [outmap]; try reflexivity.
    destruct (srows ta rows (o :: os)) as [x| | |x q w]; cbn [outmap more_reads]; try reflexivity; unfold rmap; rewrite map_app; reflexivity.
  Qed.

  Definition imap (i : option (str * list (opd A))) : option (str * list (opd B)) := option_map (fun '(m, os) => (m, map omap os)) i.
  Ltac ifs := repeat match goal with |- (if ?c then _ else _) = _ => destruct c; [try reflexivity; try (unfold nth_name; match goal with |- context [nth_error ?l ?n] => destruct (nth_error l n); reflexivity end)|] end.
  Lemma decode1_nat : forall op v, decode1 op (vmap v) = imap (decode1 op v).
  Proof.
    intros op [[k a]|]; cbn [vmap option_map decode1].
    - destruct k; try reflexivity; ifs; reflexivity.
    - destruct (dget Z.eqb simple op); [reflexivity|]. ifs; reflexivity.
  Qed.
  Lemma place_nat : forall ra rb m v, (forall n, rb n = omap (ra n)) -> place rb m (vmap v) = option_map omap (place ra m v).
  Proof.
    intros ra rb m v R. unfold place. destruct v as [[k a]|]; cbn [vmap option_map].
    - destruct (m / 64) as [|q|q]; try reflexivity.
      + destruct k; try reflexivity. destruct (m mod 8 =? 6); reflexivity.
      + destruct q as [q|[q|q|]|]; try reflexivity; try (destruct q; reflexivity). destruct k; reflexivity.
    - destruct (m / 64) as [|q|q]; try reflexivity.
      + destruct (m mod 8 =? 6); reflexivity.
      + destruct q as [[q|q|]|[q|q|]|]; try reflexivity. rewrite R. reflexivity.
  Qed.
  Lemma decode2_nat : forall op m v, decode2 op m (vmap v) = imap (decode2 op m v).
  Proof.
    intros op m v. unfold decode2. cbv zeta.
    rewrite (place_nat R8 R8) by reflexivity. rewrite (place_nat R16 R16) by reflexivity.
    set (e8 := place R8 m v). set (e16 := place R16 m v). clearbody e8 e16.
    destruct (op <? 64); [destruct (nth_error alu _); [|reflexivity]; destruct (op mod 8) as [|[[q|q|]|[q|q|]|]|q]; destruct e8, e16; reflexivity|].
    repeat match goal with |- (if ?c then _ else _) = _ => destruct c; [repeat match goal with |- context [if ?d then _ else _] =>
      lazymatch type of d with bool => destruct d end end; destruct e8 as [[]|], e16 as [[]|]; reflexivity|] end. reflexivity.
  Qed.
  Lemma decode_nat : forall pre v, decode pre (vmap v) = imap (decode pre v).
  Proof.
    intros [|op [|m [|]]] v; try reflexivity; [apply decode1_nat|]. unfold decode. destruct v as [[k a]|]; cbn [vmap option_map].
    - apply (decode2_nat op m (Some (k, a))).
    - destruct (_ && _); [reflexivity|]. destruct (_ && _); [reflexivity|]. apply (decode2_nat op m None).
  Qed.
End Natural.

(** ** Classes of operands *)
Definition sof (o : opd str) : str := match o with Mem _ (Some d) => d | Dir a => a | Val t => t | _ => [] end.
Definition cl (i : nat) (o : opd str) : opd cls :=
  match o with
  | R8 n => R8 n | R16 n => R16 n | SR n => SR n | Mem m d => Mem m (option_map (fun _ => (i, 0)) d) | Dir a => Dir (i, 0)
  | Val t => Val (i, stag t) | Lit n => Lit n
  end.
Definition fn (os : list (opd str)) (c : cls) : str := nth (fst c) (map sof os) [].
Definition classified (os : list (opd str)) : list (opd cls) :=
  match os with [] => [] | [o] => [cl 0 o] | o1 :: o2 :: _ => [cl 0 o1; cl 1 o2] end.

Lemma map_classified : forall os, (length os <= 2)%nat -> map (omap (fn os)) (classified os) = os.
Proof.
  intros os L. assert (X : forall i o, nth i (map sof os) [] = sof o -> omap (fn os) (cl i o) = o).
  { intros i o E. destruct o as [n|n|n|m [d|]|a|a|n]; cbn [omap cl option_map]; try reflexivity; unfold fn; cbn [fst]; rewrite E; reflexivity. }
  destruct os as [|o1 [|o2 [|]]]; try (cbn in L; lia); cbn [classified map]; repeat f_equal; apply X; reflexivity.
Qed.
Lemma tagged_classified : forall os, Forall (tagged (fn os) ctag stag) (classified os).
Proof.
  intros os. destruct os as [|o1 [|o2 os]]; cbn [classified]; repeat constructor; try destruct o1; try destruct o2; cbn; auto.
Qed.
Lemma rows_classified : forall rows os, (length os <= 2)%nat ->
  srows stag rows os = outmap (fn os) (srows ctag rows (classified os)).
Proof.
  intros rows os L. rewrite <- (map_classified os L) at 1. apply rows_nat. apply tagged_classified.
Qed.
Lemma in_range8 : forall n, 0 <= n < 8 -> In n range8.
Proof. intros n H. cbn [range8 In]. lia. Qed.
Lemma in_classes : forall i o ws, written1 o ws -> In (cl i o) (classes i).
Proof.
  intros i o ws H. unfold classes. rewrite !in_app_iff, !in_map_iff.
  destruct H as [n t H|n t H|n t H|m ws H|m ws d H V NP|m ws d H V|t V|t V C]; cbn [cl option_map].
  - left. exists n. split; [reflexivity|]. apply in_range8, (in_regs8 n t H).
  - right. left. exists n. split; [reflexivity|]. apply in_range8, (in_regs16 n t H).
  - right. right. left. exists n. split; [reflexivity|]. destruct (in_segs n t H). cbn [In]. lia.
  - right. right. right. left. exists m. split; [reflexivity|]. apply in_range8, (nth_of_lt _ _ _ _ H).
  - right. right. right. right. left. exists m. split; [reflexivity|]. apply in_range8, (nth_of_lt _ _ _ _ H).
  - right. right. right. right. left. exists m. split; [reflexivity|]. apply in_range8, (nth_of_lt _ _ _ _ H).
  - do 5 right. left. reflexivity.
  - do 5 right. unfold stag. destruct (str_eqb t #"3"); [cbn [In]; auto|]. destruct (str_eqb t #"1"); cbn [In]; auto.
Qed.
Lemma written_each : forall os ops, written os ops -> Forall (fun o => exists ws, written1 o ws) os.
Proof. intros os ops H. induction H; constructor; eauto. Qed.
Lemma in_lists : forall m n os ops, written os ops -> (length os <= n)%nat -> (n <= 2)%nat -> In (classified os) (lists m n).
Proof.
  intros m n os ops W L N. apply written_each in W. destruct os as [|o1 [|o2 [|]]]; cbn [length] in L; [| | |lia]; unfold lists; cbn [classified].
  - left. reflexivity.
  - right. inversion W as [|? ? [ws W1] _]; subst. destruct n as [|[|n]]; [lia| |].
    + apply in_map_iff. eexists. split; [reflexivity|]. eapply in_classes; eauto.
    + apply in_or_app. left. apply in_map_iff. eexists. split; [reflexivity|]. eapply in_classes; eauto.
  - right. inversion W as [|? ? [ws W1] W']; subst. inversion W' as [|? ? [ws2 W2] _]; subst. destruct n as [|[|n]]; [lia|lia|].
    apply in_or_app. right. apply in_flat_map. exists (cl 0 o1). split; [eapply in_classes; exact W1|]. apply in_map_iff. eexists. split; [reflexivity|].
    eapply in_classes; exact W2.
Qed.

(** ** What is offered *)
Lemma stag_one : forall t, (stag t =? 1) = true <-> t = #"1".
Proof.
  intros t. unfold stag. destruct (str_eqb t #"3") eqn:E; [apply str_eqb_eq in E; subst; split; discriminate|].
  destruct (str_eqb t #"1") eqn:E2; [apply str_eqb_eq in E2; subst; split; reflexivity|]. split; [discriminate|].
  intros ->. discriminate.
Qed.
Lemma stag_three : forall t, (stag t =? 3) = true <-> t = #"3".
Proof.
  intros t. unfold stag. destruct (str_eqb t #"3") eqn:E; [apply str_eqb_eq in E; subst; split; reflexivity|].
  destruct (str_eqb t #"1") eqn:E2; split; try discriminate; intros ->; discriminate.
Qed.
Lemma takes_iff : forall k i o, takesb k (cl i o) = true <-> takes k o.
Proof.
  intros k i o. destruct k, o as [n|n|n|m d|a|a|n]; cbn [takesb cl takes]; try tauto; try (split; [discriminate|contradiction]).
  - apply Z.eqb_eq.
  - apply Z.eqb_eq.
  - apply Z.eqb_eq.
  - rewrite negb_true_iff. apply Z.eqb_neq.
  - apply stag_one.
Qed.
Lemma sigs_in : forall m ks, In ks (sigs_of m) <-> In (m, ks) signatures.
Proof.
  intros m ks. unfold sigs_of. rewrite in_map_iff. split.
  - intros ([m' ks'] & E & I). apply filter_In in I. destruct I as [I E2]. cbn [fst snd] in *. apply str_eqb_eq in E2. subst. exact I.
  - intros I. exists (m, ks). split; [reflexivity|]. apply filter_In. split; [exact I|]. apply str_eqb_refl.
Qed.
Lemma offered_iff : forall m os, (length os <= 2)%nat -> offeredb (sigs_of m) (classified os) = true <-> offered m os.
Proof.
  intros m os L. unfold offeredb, offered. rewrite existsb_exists.
  assert (X : forall ks, all2 takesb ks (classified os) = true <-> Forall2 takes ks os).
  { intros ks. destruct os as [|o1 [|o2 [|]]]; cbn [length] in L; [| | |lia]; cbn [classified].
    - destruct ks; cbn [all2]; split; intros H; try discriminate; try constructor. inversion H.
    - destruct ks as [|k1 [|k2 ks]]; cbn [all2]; rewrite ?andb_false_r, ?andb_true_r; split; intros H; try discriminate; try (inversion H; subst; fail).
      + constructor; [apply (takes_iff k1 0); exact H|constructor].
      + inversion H; subst. apply takes_iff. assumption.
      + inversion H as [|? ? ? ? ? Q]; subst. inversion Q.
    - destruct ks as [|k1 [|k2 [|k3 ks]]]; cbn [all2]; rewrite ?andb_false_r, ?andb_true_r; split; intros H; try discriminate.
      + inversion H.
      + inversion H as [|? ? ? ? ? Q]; subst. inversion Q.
      + apply andb_prop in H. destruct H as [H1 H2]. constructor; [apply (takes_iff k1 0); exact H1|]. constructor; [apply (takes_iff k2 1); exact H2|constructor].
      + inversion H as [|? ? ? ? P Q]; subst. inversion Q; subst. apply andb_true_intro. split; apply takes_iff; assumption.
      + inversion H as [|? ? ? ? P Q]; subst. inversion Q as [|? ? ? ? P2 Q2]; subst. inversion Q2. }
  split.
  - intros (ks & I & H). exists ks. split; [apply sigs_in; exact I|apply X; exact H].
  - intros (ks & I & H). exists ks. split; [apply sigs_in; exact I|apply X; exact H].
Qed.
Lemma deviating_cls : forall m os, (length os <= 2)%nat -> deviatingb m (classified os) = true -> deviating m os.
Proof.
  intros m os L H. unfold deviatingb in H. apply orb_prop in H. destruct H as [H|H]; [apply dv_adjust; apply str_in_In; exact H|].
  assert (SH : forall o, str_in m [#"SHL"; #"SHR"] = true -> deviating m [o]).
  { intros o X. apply dv_shift. apply str_in_In. exact X. }
  assert (SH2 : forall o1 o2, str_in m [#"SHL"; #"SHR"] = true -> deviating m [o1; o2]).
  { intros o1 o2 X. apply (dv_more m [o1] o2 []); [discriminate|]. right. apply SH. exact X. }
  assert (J : forall o, in_memory o = true -> str_in m (conditional ++ loops ++ [#"CALL"; #"JMP"]) = true -> deviating m [o]).
  { intros o IM X. apply dv_jump; [apply str_in_In; exact X|exact IM]. }
  destruct os as [|o1 [|o2 [|]]]; cbn [length] in L; [discriminate| | |lia]; cbn [classified] in H.
  - destruct o1 as [n|n|n|r d|a|a|n]; cbn [cl] in H; try (apply SH; exact H).
    + apply orb_prop in H. destruct H as [H|H]; [apply orb_prop in H; destruct H as [H|H]|].
      * apply str_eqb_eq in H. subst m. constructor.
      * apply SH; exact H.
      * apply J; [reflexivity|exact H].
    + apply orb_prop in H. destruct H as [H|H]; [apply SH; exact H|apply J; [reflexivity|exact H]].
  - destruct o1 as [n|n|n|r d|a|a|n]; cbn [cl] in H; try (apply SH2; exact H).
    + apply orb_prop in H. destruct H as [H|H]; [|apply SH2; exact H].
      apply andb_prop in H. destruct H as [H N]. apply str_eqb_eq in H. apply Z.eqb_eq in N. subst. constructor.
    + destruct o2; cbn [cl] in H; try (apply SH2; exact H). apply orb_prop in H. destruct H as [H|H]; [|apply SH2; exact H].
      apply str_eqb_eq in H. subst. constructor.
Qed.

(** ** The check *)
Definition row_fine (r : str * list (Z * list arg)) : bool :=
  let '(m, rows) := r in
  let sigs := sigs_of m in forallb (check1 m sigs rows) (lists m (rank m rows)) && Nat.leb (rank m rows) 2 && forallb known_row rows.
Lemma table_fine : forallb row_fine i86_opcodes = true.
Proof. vm_cast_no_check (eq_refl true). Qed.
Lemma table_covers : forallb (fun '(m, ks) => match dget str_eqb i86_opcodes m with Some rows => Nat.leb (length ks) (rank m rows) | None => false end) signatures = true.
Proof. vm_cast_no_check (eq_refl true). Qed.
Lemma fine_row : forall m rows, In (m, rows) i86_opcodes ->
  (forall os ops, written os ops -> (length os <= rank m rows)%nat -> check1 m (sigs_of m) rows (classified os) = true) /\
  (rank m rows <= 2)%nat /\ forallb known_row rows = true.
Proof.
  intros m rows I. pose proof table_fine as T. rewrite forallb_forall in T. apply T in I. cbn [row_fine] in I. cbv zeta in I.
  rewrite !andb_true_iff in I. destruct I as ((C & R) & K). apply Nat.leb_le in R. rewrite forallb_forall in C.
  split; [|split; [exact R|exact K]].
  intros os ops W L. apply C. eapply in_lists; eauto.
Qed.

(** ** Encoding *)
Lemma alike_cls : forall os a b, In a (classified os) -> opd_eqb a b = true -> alike (omap (fn os) a) (omap (fn os) b).
Proof.
  intros os a b I H. assert (T : tagged (fn os) ctag stag a) by (pose proof (tagged_classified os) as X; rewrite Forall_forall in X; auto).
  assert (C : forall x y, cls_eqb x y = true -> fn os x = fn os y).
  { intros x y E. unfold cls_eqb in E. apply andb_prop in E. destruct E as [E _]. apply Nat.eqb_eq in E. unfold fn. rewrite E. reflexivity. }
  destruct a as [x|x|x|x [d|]|x|x|x], b as [y|y|y|y [e|]|y|y|y]; cbn [opd_eqb omap option_map] in *; try discriminate;
    try (apply Z.eqb_eq in H; subst; constructor).
  - apply andb_prop in H. destruct H as [H1 H2]. apply Z.eqb_eq in H1. rewrite (C _ _ H2). subst. constructor.
  - rewrite (C _ _ H). constructor.
  - rewrite (C _ _ H). constructor.
  - cbn [tagged] in T. destruct y as [|y|y]; try discriminate. destruct y as [y|y|]; try discriminate.
    + destruct y; try discriminate. rewrite <- T in H. apply stag_three in H. rewrite H. constructor.
    + rewrite <- T in H. apply stag_one in H. rewrite H. constructor.
Qed.
Lemma alike_all : forall os, (length os <= 2)%nat -> forall os', all2 opd_eqb (classified os) os' = true -> Forall2 alike os (map (omap (fn os)) os').
Proof.
  intros os L os' H. rewrite <- (map_classified os L) at 1. assert (S : incl (classified os) (classified os)) by (intros x; auto).
  revert S H. generalize (classified os) at 1 3 4. intros l. revert os'. induction l as [|a l IH]; intros [|b os'] S H; cbn [all2] in H; try discriminate; [constructor|].
  apply andb_prop in H. destruct H as [H1 H2]. cbn [map]. constructor; [apply alike_cls; [apply S; left; reflexivity|exact H1]|]. apply IH; [|exact H2]. intros x I. apply S. right. exact I.
Qed.
Lemma dget_rows : forall m rows, dget str_eqb i86_opcodes m = Some rows -> In (m, rows) i86_opcodes.
Proof. intros m rows D. apply (PyFacts.dget_In str_eqb str_eqb_eq) in D. exact D. Qed.
Lemma Forall2_len : forall A B (R : A -> B -> Prop) l r, Forall2 R l r -> length l = length r.
Proof. intros A B R l r F. induction F; cbn [length]; congruence. Qed.
Lemma cls_eqb_eq : forall a b, cls_eqb a b = true -> a = b.
Proof.
  intros [i x] [j y] H. unfold cls_eqb in H. apply andb_prop in H. destruct H as [H1 H2]. apply Nat.eqb_eq in H1. apply Z.eqb_eq in H2.
  cbn [fst snd] in *. congruence.
Qed.
Lemma offered_rows : forall m os, offered m os -> exists rows, dget str_eqb i86_opcodes m = Some rows /\ (length os <= rank m rows)%nat.
Proof.
  intros m os (ks & I & F). pose proof table_covers as T. rewrite forallb_forall in T. apply T in I. cbv beta iota in I.
  destruct (dget str_eqb i86_opcodes m) as [rows|]; [|discriminate]. exists rows. split; [reflexivity|]. apply Nat.leb_le in I.
  rewrite <- (Forall2_len _ _ _ _ _ F). exact I.
Qed.
Lemma in_classified : forall os o, (length os <= 2)%nat -> In o (classified os) -> In (omap (fn os) o) os.
Proof. intros os o L I. apply (in_map (omap (fn os))) in I. rewrite (map_classified os L) in I. exact I. Qed.

(** Where the value stands. *)
Lemma stored_off : forall p s f t b ds off, (f = Disp16 \/ (f = Imm16 /\ ~ not_num p s t 16 false)) ->
  stored86 p s 1 f t b ds <-> stored86 p s off f t b ds.
Proof.
  intros p s f t b ds off [-> |[-> N]]; split; intros H; inversion H; subst; try contradiction; constructor; assumption.
Qed.
Definition value_at (s : st) (pre : bytes) (f : fld) (t : str) : Prop :=
  zlen pre = 1 \/ (f = Disp16 /\ ~ not_num i86_p s t 16 true) \/ (f = Imm16 /\ ~ not_num i86_p s t 16 false).
Lemma value_stored : forall s pre f t b ds, value_at s pre f t ->
  stored86 i86_p s 1 f t b ds <-> stored86 i86_p s (zlen pre) f t b ds.
Proof. intros s pre f t b ds [-> |[[-> N]|[-> N]]]; [tauto|apply stored_off; auto|apply stored_off; auto]. Qed.
Lemma laid_iff : forall s pre f t (r : M bytes), value_at s pre f t ->
  (forall s' b, r s = (s', Ok b) <-> exists ds, stored86 i86_p s 1 f t b ds /\ s' = referring s ds) ->
  forall s' x, (let! b := r in ret (Some (pre ++ b))) s = (s', Ok x) <->
    exists b ds, x = Some b /\ laid86 i86_p s pre (Some (f, t)) b ds /\ s' = referring s ds.
Proof.
  intros s pre f t r V R s' x. rewrite bind_ok. split.
  - intros (s1 & b & E & Q). apply R in E. destruct E as (ds & ST & ->). apply ret_ok in Q. destruct Q as [-> ->].
    exists (pre ++ b), ds. split; [reflexivity|]. split; [|reflexivity]. constructor. apply value_stored; assumption.
  - intros (b & ds & -> & LA & ->). inversion LA; subst. exists (referring s ds), b0. split.
    + apply R. exists ds. split; [apply (value_stored _ pre); assumption|reflexivity].
    + reflexivity.
Qed.

Lemma call_encoding : forall m rows os t0 ops s, dget str_eqb i86_opcodes m = Some rows -> written os ops -> 0 <= pc s ->
  offered m os -> ~ pitfall i86_p s m os ->
  exists pre v os', decode pre v = Some (m, os') /\ Forall2 alike os os' /\
    forall s' x, i86_call rows (t0 :: ops) s = (s', Ok x) <-> exists b ds, x = Some b /\ laid86 i86_p s pre v b ds /\ s' = referring s ds.
Proof.
  intros m rows os t0 ops s D W PC O NP. destruct (offered_rows m os O) as (rows' & D' & RK). rewrite D in D'. injection D' as <-.
  destruct (fine_row m rows (dget_rows _ _ D)) as (CK & R2 & KN). specialize (CK os ops W RK).
  assert (L2 : (length os <= 2)%nat) by lia. pose proof (rows_follow rows t0 os ops KN W) as FO. rewrite (rows_classified rows os L2) in FO.
  apply (offered_iff m os L2) in O. unfold check1 in CK. rewrite O in CK.
  destruct (srows ctag rows (classified os)) as [rs| | |rs pre v]; try discriminate.
  apply orb_prop in CK. destruct CK as [BP|CK].
  { exfalso. apply NP. apply pf_bp. unfold has_bp in BP. rewrite existsb_exists in BP. destruct BP as (o & I & H).
    apply (in_classified os o L2) in I. destruct o as [| | |n d| | |]; try discriminate. cbn [omap option_map] in I.
    assert (n = 6 /\ d = None) as [-> ->]; [|exact I]. clear -H. destruct n as [|n|n]; try discriminate H. destruct n as [n|n|]; try discriminate H.
    destruct n as [n|n|]; try discriminate H. destruct n as [n|n|]; try discriminate H. destruct d; [discriminate H|]. auto. }
  destruct (fuse rs v) as [w|] eqn:FU; [|discriminate]. destruct (decode pre w) as [[m' os']|] eqn:DE; [|discriminate].
  rewrite !andb_true_iff in CK. destruct CK as ((M & AL) & AT). apply str_eqb_eq in M. subst m'.
  exists pre, (vmap (fn os) w), (map (omap (fn os)) os'). split; [rewrite decode_nat, DE; reflexivity|]. split; [apply alike_all; assumption|].
  assert (VA : forall f a, w = Some (f, a) -> value_at s pre f (fn os a)).
  { intros f a ->. unfold at_one in AT.
    assert (CE : forall x y, cls_eqb x y = true -> fn os x = fn os y).
    { intros x y E. unfold cls_eqb in E. apply andb_prop in E. destruct E as [E _]. apply Nat.eqb_eq in E. unfold fn. rewrite E. reflexivity. }
    assert (DISP : existsb (fun o : opd cls => match o with Mem _ (Some b) => cls_eqb a b | _ => false end) (classified os) = true ->
      ~ not_num i86_p s (fn os a) 16 true).
    { intros H NN. rewrite existsb_exists in H. destruct H as (o & I & H). apply (in_classified os o L2) in I. destruct o as [| | |n [d|]| | |]; try discriminate.
      apply NP. cbn [omap option_map] in I. eapply pf_name; [exact I|]. rewrite <- (CE _ _ H). exact NN. }
    assert (FAR : str_in m [#"LES"; #"LDS"] = true -> forall o b, classified os = [o; Dir b] -> cls_eqb a b = true -> ~ not_num i86_p s (fn os a) 16 false).
    { intros H o b E C NN. apply NP. rewrite <- (map_classified os L2), E. cbn [map omap]. apply pf_far; [apply str_in_In; exact H|].
      rewrite <- (CE _ _ C). exact NN. }
    destruct pre as [|b0 [|b1 [|]]]; try (destruct f; discriminate); [left; reflexivity|right].
    destruct f; try (rewrite andb_false_r in AT; discriminate); [right|left; split; [reflexivity|]; apply DISP; exact AT].
    apply andb_prop in AT. destruct AT as [AT1 AT2]. split; [reflexivity|].
    destruct (classified os) as [|o1 [|[| | | |b| |] [|]]]; try discriminate. eapply FAR; eauto. }
  cbn [outmap follows] in FO. intros s' x. rewrite FO. unfold fuse in FU.
  destruct rs as [|[f1 a1] [|]]; cbn [map rmap rall].
  - rewrite ret_bind. assert (w = v) as ->. { destruct v as [[[] ?]|]; congruence. }
    destruct v as [[f a]|]; cbn [vmap option_map ropt] in *.
    + assert (NF : f <> AddrV) by (intros ->; discriminate).
      specialize (VA f a eq_refl). apply laid_iff; [exact VA|]. intros s1 b. apply read_ok; [exact PC|exact NF|].
      intros ->. destruct VA as [Z|[[_ X]|[X _]]]; [|exact X|discriminate]. unfold at_one in AT. exfalso.
      destruct pre as [|b0 [|b1 [|]]]; try discriminate.
    + unfold ropt. rewrite ret_bind, app_nil_r. split.
      * intros E. apply ret_ok in E. destruct E as [-> ->]. exists pre, []. split; [reflexivity|]. split; [constructor|reflexivity].
      * intros (b & ds & -> & LA & ->). inversion LA; subst. reflexivity.
  - assert (SEQ : forall f2 t, (rall [(f1, t)] ;; (let! b := ropt (Some (f2, t)) in ret (Some (pre ++ b)))) s =
      (let! b := bind (read f1 t) (fun _ => read f2 t) in ret (Some (pre ++ b))) s).
    { intros f2 t. cbn [rall ropt]. rewrite !bind_assoc. apply bind_ext. intros b s1. rewrite ret_bind. reflexivity. }
    destruct f1; try discriminate; destruct v as [[f2 a2]|]; try discriminate; destruct f2; try discriminate;
      destruct (cls_eqb a1 a2) eqn:CE; try discriminate; apply cls_eqb_eq in CE; subst a2; injection FU as <-;
      specialize (VA _ _ eq_refl); cbn [vmap option_map]; cbn [rall] in SEQ; rewrite SEQ; apply laid_iff; try exact VA; intros s1 b.
    + apply twice_byte. exact PC.
    + apply twice_word. exact PC.
  - destruct f1; try discriminate; destruct v as [[[] ?]|]; discriminate.
Qed.

(** ** What is accepted *)
Lemma srow_more : forall args first os more m p v, (length args <= length os)%nat ->
  srow stag args first (os ++ more) m p v = srow stag args first os m p v.
Proof.
  induction args as [|a args IH]; intros first os more m p v L; [reflexivity|]. cbn [length] in L. cbn [srow].
  destruct os as [|o os]; [cbn in L; lia|]. cbn [app tl length] in *. destruct (sstep stag a first o m) as [| | |pr v' m']; try reflexivity.
  destruct v, v', pr; try reflexivity; apply IH; lia.
Qed.
Lemma srows_more : forall rows os more, os <> [] -> (arity rows <= length os)%nat ->
  srows stag rows (os ++ more) = srows stag rows os.
Proof.
  induction rows as [|[base args] rows IH]; intros os more NE L; [reflexivity|]. cbn [arity fold_right snd] in L. cbn [srows].
  assert (L2 : (arity rows <= length os)%nat) by (unfold arity; lia). destruct (@start str base) as [b m].
  destruct os as [|o os]; [congruence|]. cbn [app]. destruct args as [|a args]; [reflexivity|].
  change (o :: os ++ more) with ((o :: os) ++ more). rewrite srow_more by lia. destruct (srow stag (a :: args) true (o :: os) m [] None); try reflexivity.
  rewrite IH by (try discriminate; exact L2). reflexivity.
Qed.
Lemma written_split : forall os1 os2 ops, written (os1 ++ os2) ops -> exists ops1, written os1 ops1.
Proof.
  induction os1 as [|o os1 IH]; intros os2 ops W; [exists []; constructor|]. inversion W; subst.
  match goal with X : written (os1 ++ os2) _ |- _ => destruct (IH _ _ X) as [ops1 W1] end. exists (ws ++ ops1). constructor; assumption.
Qed.
Lemma rank_arity : forall m rows, (rank m rows <= 2)%nat -> forallb (fun r => Nat.leb (length (snd r)) 2) rows = true -> (arity rows <= rank m rows)%nat.
Proof.
  intros m rows R F. unfold rank in *. destruct (str_in m _); [|lia]. induction rows as [|r rows IH]; [cbn; lia|].
  cbn [forallb arity fold_right] in *. apply andb_prop in F. destruct F as [F1 F2]. apply Nat.leb_le in F1. specialize (IH F2). unfold arity in IH. lia.
Qed.
Lemma all_short : forallb (fun r => forallb (fun x => Nat.leb (length (snd x)) 2) (snd r)) i86_opcodes = true.
Proof. vm_cast_no_check (eq_refl true). Qed.
Lemma call_accepted : forall m rows os t0 ops s s' b, dget str_eqb i86_opcodes m = Some rows -> written os ops ->
  i86_call rows (t0 :: ops) s = (s', Ok (Some b)) -> offered m os \/ deviating m os.
Proof.
  intros m rows os t0 ops s s' b D W C. pose proof (dget_rows _ _ D) as I.
  destruct (fine_row m rows I) as (CK & R2 & KN). pose proof (rows_follow rows t0 os ops KN W) as FO.
  assert (AR : (arity rows <= rank m rows)%nat).
  { apply rank_arity; [exact R2|]. pose proof all_short as S. rewrite forallb_forall in S. apply (S _ I). }
  assert (CORE : forall os1 ops1, written os1 ops1 -> (length os1 <= rank m rows)%nat -> srows stag rows os = srows stag rows os1 ->
    offered m os1 \/ deviating m os1).
  { intros os1 ops1 W1 L E. assert (L2 : (length os1 <= 2)%nat) by lia. specialize (CK os1 ops1 W1 L). rewrite E, (rows_classified rows os1 L2) in FO.
    unfold check1 in CK. destruct (srows ctag rows (classified os1)) as [rs| | |rs pre v]; cbn [outmap follows] in FO.
    - exfalso. rewrite FO in C. unfold bind in C. destruct (rall _ s) as [s1 [u|e]]; discriminate.
    - exfalso. apply (FO _ _ _ C).
    - apply andb_prop in CK. right. apply deviating_cls; [exact L2|apply CK].
    - destruct (offeredb (sigs_of m) (classified os1)) eqn:O; [left; apply offered_iff; assumption|right; apply deviating_cls; assumption]. }
  destruct (Nat.le_gt_cases (length os) (rank m rows)) as [L|L].
  - apply (CORE os ops W L eq_refl).
  - set (os1 := firstn (rank m rows) os). assert (L1 : length os1 = rank m rows) by (apply firstn_length_le; lia).
    assert (E : os = os1 ++ skipn (rank m rows) os) by (symmetry; apply firstn_skipn).
    destruct (skipn (rank m rows) os) as [|o more] eqn:SK; [rewrite app_nil_r in E; rewrite E in L; lia|].
    assert (NE : os1 <> []). { intros X. rewrite X in L1. unfold rank in L1. destruct (str_in m _); cbn [length] in L1; lia. }
    rewrite E in W. destruct (written_split _ _ _ W) as (ops1 & W1).
    right. rewrite E. apply dv_more; [exact NE|]. apply (CORE os1 ops1 W1); [lia|]. rewrite E at 1. apply srows_more; [exact NE|]. rewrite L1. exact AR.
Qed.

(** ** Statements *)
Lemma i86_instructions : forall e, c_instructions (i8086 e) = i86_ops.
Proof. intros e. unfold i8086. cbn [c_instructions mk_cfg]. apply register_all_id; vm_compute; reflexivity. Qed.
Lemma i86_get : forall e m, dget str_eqb (c_instructions (i8086 e)) m =
  match dget str_eqb i86_opcodes m with Some rows => Some (OFun (i86_call rows)) | None => None end.
Proof.
  intros e m. rewrite i86_instructions. unfold i86_ops. induction i86_opcodes as [|[n vs] l IH]; [reflexivity|].
  cbn [map dget]. destruct (str_eqb m n); [reflexivity|exact IH].
Qed.
Lemma i86_run : forall e s t0 ops s' rows, dget str_eqb i86_opcodes (upper t0) = Some rows ->
  opcode_assemble (i8086 e) (op_key (i8086 e) t0) (t0 :: ops) s = (s', Ok tt) <->
  exists b s1, i86_call rows (t0 :: ops) s = (s1, Ok (Some b)) /\ emitted s1 b s'.
Proof.
  intros e s t0 ops s' rows D. change (op_key (i8086 e) t0) with (upper t0).
  rewrite (fun_result _ _ _ (i86_call rows)) by (rewrite i86_get, D; reflexivity).
  destruct (i86_call rows (t0 :: ops) s) as [s1 r]. cbn [fst snd]. split.
  - intros (b & -> & E). eauto.
  - intros (b & s2 & X & E). injection X as <- ->. eauto.
Qed.
Theorem i86_encoding : forall e s words t0 ops os, opcode_stmt (i8086 e) s words t0 ops -> 0 <= pc s -> written os ops ->
  offered (upper t0) os -> ~ pitfall i86_p s (upper t0) os ->
  exists pre v os', decode pre v = Some (upper t0, os') /\ Forall2 alike os os' /\
    forall fuel l s', exec (i8086 e) fuel [Stmt KInstruction words l] s = (s', Ok tt) <->
      exists b ds, laid86 i86_p s pre v b ds /\ emitted (referring s ds) b s'.
Proof.
  intros e s words t0 ops os OS PC W O NP. destruct (offered_rows _ _ O) as (rows & D & _).
  destruct (call_encoding _ _ _ t0 _ _ D W PC O NP) as (pre & v & os' & DE & AL & X). exists pre, v, os'. split; [exact DE|]. split; [exact AL|].
  intros fuel l s'. rewrite (exec_opcode _ _ _ _ _ _ _ OS), (i86_run _ _ _ _ _ _ D). split.
  - intros (b & s1 & C & E). apply X in C. destruct C as (b' & ds & Q & LA & ->). injection Q as <-. eauto.
  - intros (b & ds & LA & E). exists b, (referring s ds). split; [apply X; eauto|exact E].
Qed.
Theorem i86_accepted : forall e s words t0 ops os fuel l s', opcode_stmt (i8086 e) s words t0 ops -> written os ops ->
  exec (i8086 e) fuel [Stmt KInstruction words l] s = (s', Ok tt) -> offered (upper t0) os \/ deviating (upper t0) os.
Proof.
  intros e s words t0 ops os fuel l s' OS W X. rewrite (exec_opcode _ _ _ _ _ _ _ OS) in X.
  destruct (dget str_eqb i86_opcodes (upper t0)) as [rows|] eqn:D.
  - apply (i86_run _ _ _ _ _ _ D) in X. destruct X as (b & s1 & C & _). eapply call_accepted; eauto.
  - exfalso. apply (unknown_result (i8086 e) s (upper t0) (t0 :: ops) s'); [rewrite i86_get, D; reflexivity|exact X].
Qed.
