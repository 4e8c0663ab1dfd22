(** The table of the PowerPC against the manual. *)
From Coq Require Import Lia.
From Verif Require Import Py PyFacts Utils Tokenizer State Assembler Instr Ppc.
From Verif Require Import SpecUtils SpecExec SpecLink SpecCpu UtilsFacts CpuFacts WordFacts FitFacts WordLink MipsFacts SpecPpc PpcFacts.
Local Open Scope Z_scope.

Definition entry : Type := str * (Z * list (option (list item))).
Lemma add_keys : forall n b c t k, In k (map fst (ppc_add n b c t)) -> k = n \/ In k (map fst t).
Proof.
  induction t as [|[m [b' cs]] t IH]; intros k I; cbn [ppc_add] in I.
  - destruct I as [<- |[]]. left. reflexivity.
  - destruct (str_eqb m n) eqn:E; cbn [map fst In] in *; destruct I as [<- |I]; auto. destruct (IH k I); auto.
Qed.
Lemma add_nodup : forall n b c t, NoDup (map fst t) -> NoDup (map fst (ppc_add n b c t)).
Proof.
  induction t as [|[m [b' cs]] t IH]; intros N; cbn [ppc_add].
  - constructor; [intros []|constructor].
  - cbn [map fst] in N. inversion N as [|? ? N1 N2]; subst. destruct (str_eqb m n) eqn:E; cbn [map fst]; [constructor; assumption|].
    constructor; [|auto]. intros I. apply add_keys in I. destruct I as [-> |I]; [|contradiction]. rewrite str_eqb_refl in E. discriminate E.
Qed.
Lemma opcodes_keys : NoDup (map fst ppc_opcodes) /\ forall k, In k (map fst ppc_opcodes) -> upper k = k.
Proof.
  unfold ppc_opcodes. assert (G : forall l t, NoDup (map fst t) -> (forall k, In k (map fst t) -> upper k = k) ->
    let r := fold_left (fun t '(base, name, c) => ppc_add (upper name) base c t) l t in
    NoDup (map fst r) /\ forall k, In k (map fst r) -> upper k = k).
  { induction l as [|[[b n] c] l IH]; intros t N U; cbn [fold_left]; [auto|]. apply IH; [apply add_nodup; exact N|].
    intros k I. apply add_keys in I. destruct I as [-> |I]; [|auto]. unfold upper. rewrite map_map. apply map_ext. intros [[] [] [] [] [] [] [] []]; reflexivity. }
  apply G; [constructor|intros k []].
Qed.
Lemma register_keys : forall V p (l : list (str * V)), case_sensitive p = false -> NoDup (map fst l) -> (forall k, In k (map fst l) -> upper k = k) ->
  register_all p [] l = l.
Proof.
  intros V p l CS.
  assert (G : forall (l t : list (str * V)), NoDup (map fst l) -> (forall k, In k (map fst l) -> upper k = k) ->
    (forall k, In k (map fst l) -> ~ In k (map fst t)) -> register_all p t l = t ++ l).
  { clear l. unfold register_all. induction l as [|[n a] l IH]; intros t ND U D; [rewrite app_nil_r; reflexivity|]. cbn [fold_left map fst] in *.
    inversion ND as [|? ? N1 N2]; subst. unfold register at 2. rewrite CS. rewrite (U n) by (left; reflexivity). rewrite CpuFacts.dset_fresh by (apply D; left; reflexivity).
    rewrite IH; [rewrite <- app_assoc; reflexivity|exact N2|intros k I; apply U; right; exact I|].
    intros k I J. rewrite map_app, in_app_iff in J. destruct J as [J|[<- |[]]]; [apply (D k); [right; exact I|exact J]|contradiction]. }
  intros ND U. apply G; auto.
Qed.
Lemma ppc_get : forall e k, dget str_eqb (c_instructions (powerpc e)) k =
  option_map (fun '(b, cs) => OFun (ppc_call b cs)) (dget str_eqb ppc_opcodes k).
Proof.
  intros e k. unfold powerpc, mk_cfg. cbn [c_instructions]. destruct opcodes_keys as [N U].
  assert (M : map fst ppc_ops = map fst ppc_opcodes).
  { unfold ppc_ops. rewrite map_map. apply map_ext. intros [n [b cs]]. reflexivity. }
  rewrite register_keys; [|reflexivity|rewrite M; exact N|rewrite M; exact U].
  unfold ppc_ops. clear. induction ppc_opcodes as [|[n [b cs]] l IH]; [reflexivity|]. cbn [map dget]. destruct (str_eqb k n); [reflexivity|exact IH].
Qed.

(** ** The checks *)

Definition op_eqb (a b : operand) : bool :=
  match a, b with
  | Gpr, Gpr | Gpr0, Gpr0 | Fpr, Fpr | Signed, Signed | Unsigned, Unsigned | Distance, Distance | Address, Address => true
  | _, _ => false
  end.
Definition field_eqb (f g : field) : bool := let '(o, a, b) := f in let '(o', a', b') := g in op_eqb o o' && (a =? a') && (b =? b').
Fixpoint fields_eqb (fs gs : list field) : bool :=
  match fs, gs with
  | [], [] => true
  | f :: fs, g :: gs => field_eqb f g && fields_eqb fs gs
  | _, _ => false
  end.
Lemma fields_eqb_eq : forall fs gs, fields_eqb fs gs = true -> fs = gs.
Proof.
  induction fs as [|[[o a] b] fs IH]; intros [|[[o' a'] b'] gs] H; try discriminate H; [reflexivity|]. cbn [fields_eqb field_eqb] in H.
  rewrite !andb_true_iff in H. destruct H as [[[H1 H2] H3] H4]. apply Z.eqb_eq in H2, H3. subst. rewrite (IH gs H4). f_equal. destruct o, o'; try discriminate H1; reflexivity.
Qed.
Definition shape_is (fs : list field) (c : list item) : bool := match shape c with Some gs => fields_eqb fs gs | None => false end.
Definition devb (n : str) (k : nat) : bool := existsb (fun '(m, j) => Nat.eqb j k && str_eqb m n) deviating.
Definition forms_of (n : str) : list form := flat_map (fun '(m, f) => if str_eqb m n then [f] else []) manual.
Definition entry_ok (r : entry) : bool :=
  let '(n, (base, cs)) := r in
  let cs := map cond_items cs in
  let l := live cs in
  let fs := forms_of (lower n) in
  orderly cs && forallb (cond_ok base) l &&
  forallb (fun c => existsb (fun '(w, g) => shape_is g c && ((w =? base) || devb (lower n) (length g))) fs) l &&
  forallb (fun '(w, g) => existsb (shape_is g) l && ((w =? base) || devb (lower n) (length g))) fs.
Definition all_entries : bool := forallb entry_ok ppc_opcodes.
Lemma entries_true : all_entries = true.
Proof. vm_cast_no_check (eq_refl true). Qed.
Definition all_names : bool := forallb (fun '(n, _) => str_eqb (lower n) n && existsb (fun r => str_eqb (fst r) (upper n)) ppc_opcodes) manual.
Lemma names_true : all_names = true.
Proof. vm_cast_no_check (eq_refl true). Qed.

(** ** Instructions *)

Opaque ppc_opcodes manual deviating.
Strategy expand [all_entries all_names].

Lemma forms_of_In : forall n f, In f (forms_of n) <-> In (n, f) manual.
Proof.
  intros n f. unfold forms_of. rewrite in_flat_map. split.
  - intros ([m g] & I & H). destruct (str_eqb m n) eqn:E; [|destruct H]. apply str_eqb_eq in E. subst m. destruct H as [-> |[]]. exact I.
  - intros I. exists (n, f). split; [exact I|]. rewrite str_eqb_refl. left. reflexivity.
Qed.
Lemma devb_In : forall n k, devb n k = true <-> In (n, k) deviating.
Proof.
  intros n k. unfold devb. rewrite existsb_exists. split.
  - intros ([m j] & I & H). apply andb_prop in H. destruct H as [H1 H2]. apply Nat.eqb_eq in H1. apply str_eqb_eq in H2. subst. exact I.
  - intros I. exists (n, k). split; [exact I|]. rewrite Nat.eqb_refl, str_eqb_refl. reflexivity.
Qed.
Lemma entry_of : forall t base cs, dget str_eqb ppc_opcodes (upper t) = Some (base, cs) ->
  orderly (map cond_items cs) = true /\
  (forall c, In c (live (map cond_items cs)) -> cond_ok base c = true /\
     exists w g, In (lower t, (w, g)) manual /\ shape c = Some g /\ (w = base \/ In (lower t, length g) deviating)) /\
  (forall w g, In (lower t, (w, g)) manual -> (w = base \/ In (lower t, length g) deviating) /\
     exists c, In c (live (map cond_items cs)) /\ shape c = Some g).
Proof.
  intros t base cs D. apply (PyFacts.dget_In str_eqb str_eqb_eq) in D. pose proof entries_true as H. unfold all_entries in H. rewrite forallb_forall in H. apply H in D. clear H.
  unfold entry_ok in D. rewrite lower_upper in D. cbv zeta in D. rewrite !andb_true_iff in D. destruct D as [[[O C] L] F]. rewrite forallb_forall in C, L, F.
  split; [exact O|]. split.
  - intros c I. split; [apply C; exact I|]. apply L in I. rewrite existsb_exists in I. destruct I as ([w g] & I & S). apply andb_prop in S. destruct S as [S B].
    exists w, g. split; [apply forms_of_In; exact I|]. unfold shape_is in S. destruct (shape c) as [gs|]; [|discriminate S]. apply fields_eqb_eq in S. subst gs.
    split; [reflexivity|]. apply orb_prop in B. destruct B as [B|B]; [left; apply Z.eqb_eq; exact B|right; apply devb_In; exact B].
  - intros w g I. apply forms_of_In in I. apply F in I. apply andb_prop in I. destruct I as [S B]. split.
    + apply orb_prop in B. destruct B as [B|B]; [left; apply Z.eqb_eq; exact B|right; apply devb_In; exact B].
    + rewrite existsb_exists in S. destruct S as (c & I & S). exists c. split; [exact I|]. unfold shape_is in S. destruct (shape c) as [gs|]; [|discriminate S].
      apply fields_eqb_eq in S. subst. reflexivity.
Qed.
Lemma named : forall t f, In (lower t, f) manual -> exists base cs, dget str_eqb ppc_opcodes (upper t) = Some (base, cs).
Proof.
  intros t f I. pose proof names_true as H. unfold all_names in H. rewrite forallb_forall in H. apply H in I. clear H. apply andb_prop in I. destruct I as [_ I].
  rewrite existsb_exists in I. destruct I as ([n [b cs]] & I & E). cbn [fst] in E. apply str_eqb_eq in E. rewrite upper_lower in E. subst n.
  destruct (dget str_eqb ppc_opcodes (upper t)) as [[b' cs']|] eqn:D; [eauto|]. exfalso.
  apply (proj1 (PyFacts.dget_None str_eqb str_eqb_eq ppc_opcodes (upper t)) D). apply (in_map fst) in I. exact I.
Qed.
Lemma call_manual : forall t0 base cs ops s s1 b, dget str_eqb ppc_opcodes (upper t0) = Some (base, cs) ->
  ppc_call base cs (t0 :: ops) s = (s1, Ok (Some b)) <->
  exists w fs v ds, In (lower t0, (w, fs)) manual /\ encodes s (base, fs) ops v ds /\ s1 = referring s ds /\ b = SpecMips.word_bytes true v.
Proof.
  intros t0 base cs ops s s1 b D. destruct (entry_of t0 base cs D) as (O & A & B). rewrite call_eq, (live_iff base _ O). split.
  - intros (c & I & AC & R). destruct (A c I) as (OK & w & g & M & SH & _). destruct (proj1 (cond_iff base c g SH OK t0 ops s s1 b) (conj AC R)) as (v & ds & X).
    exists w, g, v, ds. split; [exact M|exact X].
  - intros (w & g & v & ds & M & X). destruct (B w g M) as (_ & c & I & SH). destruct (A c I) as (OK & _). exists c. split; [exact I|].
    apply (cond_iff base c g SH OK). exists v, ds. exact X.
Qed.
Lemma encodes_len : forall s f ops w ds, encodes s f ops w ds -> length ops = length (snd f).
Proof. intros s f ops w ds (vs & R & _). apply reads_length in R. apply R. Qed.
Lemma ppc_iff : forall e fuel words l s s' t0 ops, opcode_stmt (powerpc e) s words t0 ops ->
  exec (powerpc e) fuel [Stmt KInstruction words l] s = (s', Ok tt) <->
  exists base cs w fs v ds, dget str_eqb ppc_opcodes (upper t0) = Some (base, cs) /\ In (lower t0, (w, fs)) manual /\
    encodes s (base, fs) ops v ds /\ emitted (referring s ds) (SpecMips.word_bytes true v) s'.
Proof.
  intros e fuel words l s s' t0 ops OS. rewrite (exec_opcode _ _ _ _ _ fuel l OS). change (op_key (powerpc e) t0) with (upper t0).
  destruct (dget str_eqb ppc_opcodes (upper t0)) as [[base cs]|] eqn:D.
  - rewrite (fun_result _ _ _ (ppc_call base cs)) by (rewrite ppc_get, D; reflexivity). split.
    + intros (b & E & EM). destruct (ppc_call base cs (t0 :: ops) s) as [s1 r] eqn:X. cbn [fst snd] in *. subst r.
      apply (call_manual _ _ _ _ _ _ _ D) in X. destruct X as (w & fs & v & ds & M & EN & -> & ->). exists base, cs, w, fs, v, ds. auto.
    + intros (base' & cs' & w & fs & v & ds & E & M & EN & EM). injection E as <- <-. exists (SpecMips.word_bytes true v).
      assert (X : ppc_call base cs (t0 :: ops) s = (referring s ds, Ok (Some (SpecMips.word_bytes true v)))).
      { apply (call_manual _ _ _ _ _ _ _ D). exists w, fs, v, ds. auto. }
      rewrite X. split; [reflexivity|exact EM].
  - split; [|intros (base & cs & w & fs & v & ds & E & _); discriminate E]. intros H. exfalso. apply (proj1 (unknown_result _ _ _ _ _ ltac:(rewrite ppc_get, D; reflexivity)) H).
Qed.
Lemma ppc_encoding : forall e fuel words l s s' t0 ops, opcode_stmt (powerpc e) s words t0 ops -> ~ In (lower t0, length ops) deviating ->
  exec (powerpc e) fuel [Stmt KInstruction words l] s = (s', Ok tt) <->
  exists f w ds, In (lower t0, f) manual /\ encodes s f ops w ds /\ emitted (referring s ds) (SpecMips.word_bytes true w) s'.
Proof.
  intros e fuel words l s s' t0 ops OS ND. rewrite (ppc_iff e fuel words l s s' t0 ops OS). split.
  - intros (base & cs & w & fs & v & ds & D & M & EN & EM). destruct (entry_of _ _ _ D) as (_ & _ & B). destruct (B w fs M) as ([-> |V] & _).
    + exists (base, fs), v, ds. auto.
    + exfalso. apply ND. rewrite (encodes_len _ _ _ _ _ EN). exact V.
  - intros ([w fs] & v & ds & M & EN & EM). destruct (named _ _ M) as (base & cs & D). destruct (entry_of _ _ _ D) as (_ & _ & B). destruct (B w fs M) as ([-> |V] & _).
    + exists base, cs, base, fs, v, ds. auto.
    + exfalso. apply ND. rewrite (encodes_len _ _ _ _ _ EN). exact V.
Qed.
Lemma ppc_accepted : forall e fuel words l s s' t0 ops, opcode_stmt (powerpc e) s words t0 ops ->
  exec (powerpc e) fuel [Stmt KInstruction words l] s = (s', Ok tt) ->
  exists f w ds, In (lower t0, f) manual /\ encodes s f ops w ds.
Proof.
  intros e fuel words l s s' t0 ops OS H. apply (ppc_iff e fuel words l s s' t0 ops OS) in H. destruct H as (base & cs & w & fs & v & ds & D & M & (vs & R & E) & EM).
  exists (w, fs), (filled w fs vs), ds. split; [exact M|]. exists vs. split; [exact R|reflexivity].
Qed.
