(** A program logic for opcode handlers. *)
From Coq Require Import Lia.
From Verif Require Import Py PyFacts Utils Tokenizer State Assembler SpecUtils SpecSubst SpecExec SpecLink
  UtilsFacts ParseFacts Events ExecFacts SpecMacro SpecSim SpecCpu Instr CpuFacts.
Local Open Scope Z_scope.

Lemma view_refl : forall s, same_view s s.
Proof. intros s. repeat split. Qed.
Lemma view_referring : forall ds s, same_view s (referring s ds).
Proof.
  induction ds as [|d ds IH]; intros s; [apply view_refl|]. cbn [referring].
  specialize (IH (set_labels_addresses s (dset Z.eqb (labels_addresses s) (zlen (assembled s) + ld_offset d) d))).
  exact IH.
Qed.
Lemma view_both : forall ds s s2, same_view s s2 -> same_view (referring s ds) (referring s2 ds).
Proof.
  intros ds s s2 V. destruct (view_referring ds s) as (A1 & A2 & A3 & A4).
  destruct (view_referring ds s2) as (B1 & B2 & B3 & B4). destruct V as (C1 & C2 & C3 & C4).
  repeat split; congruence.
Qed.

(** [pure Q m]: m records references ds and returns a with Q a ds, or fails; the
    outcome depends on the view only. *)
Definition pure {A} (Q : A -> list labeldata -> Prop) (m : M A) : Prop :=
  forall s, exists ds r, (forall s2, same_view s s2 -> m s2 = (referring s2 ds, r)) /\
    Forall sound_ref ds /\ (forall a, r = Ok a -> Q a ds).

Lemma pure_weaken : forall A (Q R : A -> list labeldata -> Prop) m, pure Q m ->
  (forall a ds, Q a ds -> R a ds) -> pure R m.
Proof. intros A Q R m H W s. destruct (H s) as (ds & r & H1 & H2 & H3). exists ds, r. auto. Qed.

Lemma pure_ret : forall A (Q : A -> list labeldata -> Prop) a, Q a [] -> pure Q (ret a).
Proof. intros A Q a H s. exists [], (Ok a). split; [reflexivity|]. split; [constructor|]. intros x E. injection E as <-. auto. Qed.
Lemma pure_raise : forall A (Q : A -> list labeldata -> Prop) e, pure Q (raise e).
Proof. intros A Q e s. exists [], (Err e). split; [reflexivity|]. split; [constructor|]. discriminate. Qed.
Lemma pure_araise : forall A (Q : A -> list labeldata -> Prop) e, pure Q (araise e).
Proof. intros. apply pure_raise. Qed.
Lemma pure_praise : forall A (Q : A -> list labeldata -> Prop) e, pure Q (praise e).
Proof. intros. apply pure_raise. Qed.
Lemma pure_lift : forall A (r : res A), pure (fun a ds => r = Ok a /\ ds = []) (lift r).
Proof. intros A r s. exists [], r. split; [reflexivity|]. split; [constructor|auto]. Qed.
Lemma pure_bind : forall A B (Q : A -> list labeldata -> Prop) (R : B -> list labeldata -> Prop) m k,
  pure Q m -> (forall a ds, Q a ds -> pure (fun b es => R b (ds ++ es)) (k a)) -> pure R (bind m k).
Proof.
  intros A B Q R m k Hm Hk s. destruct (Hm s) as (ds & r & H1 & H2 & H3). destruct r as [a|e].
  - destruct (Hk a ds (H3 a eq_refl) (referring s ds)) as (es & r2 & K1 & K2 & K3).
    exists (ds ++ es), r2. split; [|split].
    + intros s2 V. unfold bind. rewrite (H1 s2 V), referring_app. apply K1. apply view_both; auto.
    + apply Forall_app. auto.
    + exact K3.
  - exists ds, (Err e). split; [|split]; [|auto|discriminate].
    intros s2 V. unfold bind. rewrite (H1 s2 V). reflexivity.
Qed.
(** Reading without recording. *)
Definition quiet {A} (m : M A) : Prop := forall s, exists r, forall s2, same_view s s2 -> m s2 = (s2, r).
Lemma pure_quiet : forall A (m : M A), quiet m -> pure (fun _ ds => ds = []) m.
Proof. intros A m H s. destruct (H s) as (r & R). exists [], r. split; [exact R|]. split; [constructor|auto]. Qed.

Lemma pure_pc : forall B (R : B -> list labeldata -> Prop) (k : Z -> M B),
  (forall z, pure R (k z)) -> pure R (bind get (fun s => k (pc s))).
Proof.
  intros B R k H s. destruct (H (pc s) s) as (ds & r & H1 & H2 & H3). exists ds, r. split; [|auto].
  intros s2 V. unfold bind, get. assert (E : pc s2 = pc s) by (destruct V as (_ & A & C & _); unfold pc; congruence).
  rewrite E. auto.
Qed.
Lemma pure_parse : forall p t n sg, pure (fun v ds => ds = [] /\ exists lbls, parse_integer p lbls t n sg = Ok v) (m_parse_integer p t n sg).
Proof.
  intros p t n sg s. exists [], (parse_integer p (labels s) t n sg). split; [|split; [constructor|]].
  - intros s2 (L & _). unfold m_parse_integer. rewrite L. reflexivity.
  - intros a E. split; auto. exists (labels s). auto.
Qed.
Lemma pure_label : forall p t, pure (fun _ ds => ds = []) (m_label_absolute p t).
Proof.
  intros p t s. exists [], (label_absolute p (labels s) t). split; [|split; [constructor|auto]].
  intros s2 (L & _). unfold m_label_absolute. rewrite L. reflexivity.
Qed.
Lemma pure_ref : forall d, sound_ref d -> pure (fun _ ds => ds = [d]) (add_label_translation d).
Proof.
  intros d H s. exists [d], (Ok tt). split; [reflexivity|]. split; [constructor; auto|auto].
Qed.
Lemma pure_poil : forall p d sg, sound_ref d ->
  pure (fun v ds => ds = [] \/ (v = 0 /\ ds = [d])) (parse_integer_or_label p d sg).
Proof.
  intros p d sg H. unfold parse_integer_or_label. eapply pure_bind; [apply pure_parse|].
  intros [v|] ds [-> _].
  - apply pure_ret. auto.
  - eapply pure_bind; [apply pure_ref; auto|]. intros [] ds ->. apply pure_ret. auto.
Qed.
Lemma pure_tok : forall tokens i, pure (fun _ ds => ds = []) (tok_at tokens i).
Proof. intros tokens i. unfold tok_at. destruct (nth_error tokens i); [apply pure_ret; auto|apply pure_praise]. Qed.

Lemma pure_good : forall f, (forall tokens, pure (fun b _ => forall x, b = Some x -> Forall is_byte x) (f tokens)) ->
  well_behaved f.
Proof.
  intros f H tokens s. destruct (H tokens s) as (ds & r & H1 & H2 & H3). exists ds, r.
  split; [apply H1, view_refl|]. split; [exact H1|]. split; auto. intros b ->. eapply H3; reflexivity.
Qed.
Lemma pure_neat : forall f,
  (forall tokens, pure (fun b ds => forall x, b = Some x -> placed (zlen x) ds) (f tokens)) -> neat f.
Proof.
  intros f H tokens s s1 b E. destruct (H tokens s) as (ds & r & H1 & H2 & H3).
  rewrite (H1 s (view_refl s)) in E. injection E as <- ->. exists ds. split; auto. split; auto. eapply H3; reflexivity.
Qed.
(** Both at once. *)
Definition ok_out (b : option bytes) (ds : list labeldata) : Prop :=
  forall x, b = Some x -> Forall is_byte x /\ placed (zlen x) ds.
Lemma pure_handler : forall f, (forall tokens, pure ok_out (f tokens)) -> well_behaved f /\ neat f.
Proof.
  intros f H. split; [apply pure_good|apply pure_neat]; intros tokens; (eapply pure_weaken; [apply H|]);
    intros a ds X x E; destruct (X x E); auto.
Qed.

Lemma placed_nil : forall n, placed n [].
Proof. intros. split; constructor. Qed.
Lemma placed_one : forall n d, 0 <= ld_offset d -> ld_offset d + ld_size d <= n -> placed n [d].
Proof. intros. split; repeat constructor; auto. Qed.

Lemma struct_pack_length : forall be fs vs b, struct_pack be fs vs = Ok b ->
  zlen b = fold_right (fun f n => Z.of_nat (sf_size f) + n) 0 fs.
Proof.
  induction fs as [|f fs IH]; intros [|v vs] b H; cbn [struct_pack] in H; try discriminate.
  - injection H as <-. reflexivity.
  - unfold struct_pack1 in H.
    match type of H with context [if ?t then _ else _] => destruct t end; cbn [rbind] in H; [|discriminate].
    destruct (struct_pack be fs vs) eqn:E; cbn [rbind] in H; [|discriminate]. injection H as <-.
    cbn [fold_right]. rewrite zlen_app, (IH _ _ E). f_equal. unfold zlen, int_bytes.
    destruct be; rewrite ?rev_length, le_bytes_length; reflexivity.
Qed.

(** ** What a fitting processor guarantees *)

Lemma referring_same : forall ds s,
  referring s ds = set_labels_addresses s (labels_addresses (referring s ds)).
Proof.
  induction ds as [|d ds IH]; intros s; [destruct s; reflexivity|]. cbn [referring]. rewrite IH. destruct s; reflexivity.
Qed.
Lemma referring_fields : forall ds s (P : st -> Prop), (forall l, P (set_labels_addresses s l)) -> P (referring s ds).
Proof. intros ds s P H. rewrite referring_same. apply H. Qed.

Lemma fits_keep : forall (R : st -> st -> Prop) c, fits c ->
  (forall s ds, Forall sound_ref ds -> R s (referring s ds)) ->
  (forall s bits b, Forall is_byte b -> R s (put_out s bits b)) -> plugins_keep R c.
Proof.
  intros R c (H & _ & _ & B) K PO. split.
  - intros k f tokens s D. destruct (H k f D tokens s) as (ds & r & E & _ & S & _). rewrite E. apply K. exact S.
  - intros k f tokens s D. destruct (B k f D tokens s) as (bits & b & r & BY & E). rewrite (E s) by (repeat split). apply PO. exact BY.
Qed.
Lemma fits_keep_fields : forall (R : st -> st -> Prop) c, fits c ->
  (forall s l, R s (set_labels_addresses s l)) ->
  (forall s bits b, R s (put_out s bits b)) -> plugins_keep R c.
Proof. intros R c F K PO. apply fits_keep; auto. intros s ds _. apply referring_fields. apply K. Qed.

Lemma fits_bytes : forall c, fits c -> (forall n b, file_bytes (c_env c) n = Some b -> Forall is_byte b) ->
  byte_tables c.
Proof.
  intros c (H & S & _) F. split; [exact S|]. split; [exact F|].
  intros k f tokens s b D E. destruct (H k f D tokens s) as (ds & r & X & _ & _ & B).
  rewrite X in E. apply B. exact E.
Qed.

Lemma referring_hooks : forall ds s, Forall sound_ref ds -> byte_hooks (labels_addresses s) ->
  byte_hooks (labels_addresses (referring s ds)).
Proof.
  induction ds as [|d ds IH]; intros s F B; [exact B|]. inversion F; subst. cbn [referring]. apply IH; auto.
  cbn [labels_addresses set_labels_addresses]. apply byte_hooks_ref; auto. left. apply H1.
Qed.

Lemma referring_macros : forall ds s ms, referring (set_macros s ms) ds = set_macros (referring s ds) ms.
Proof.
  induction ds as [|d ds IH]; intros s ms; [reflexivity|]. cbn [referring].
  change (set_labels_addresses (set_macros s ms)
    (dset Z.eqb (labels_addresses (set_macros s ms)) (zlen (assembled (set_macros s ms)) + ld_offset d) d))
    with (set_macros (set_labels_addresses s (dset Z.eqb (labels_addresses s) (zlen (assembled s) + ld_offset d) d)) ms).
  apply IH.
Qed.
Lemma fits_macros : forall c, fits c -> macros_ignored c.
Proof.
  intros c (H & _) k f tokens s D. destruct (H k f D tokens s) as (ds & r & E & V & _). split; [|split].
  - intros ms. rewrite E, V by (repeat split). cbn [fst snd]. rewrite referring_macros. reflexivity.
  - rewrite E. cbn [fst]. apply referring_fields. reflexivity.
  - rewrite E. cbn [fst]. apply referring_fields. reflexivity.
Qed.

Lemma referring_agree : forall lg ln ds s1 s2, agree lg ln s1 s2 ->
  agree lg ln (referring s1 ds) (referring s2 ds).
Proof.
  induction ds as [|d ds IH]; intros s1 s2 A; [exact A|]. cbn [referring]. apply IH.
  unfold agree in *. cbn [set_labels_addresses assembled labels current_org current_org_end org_counter
    labels_addresses macros macro_recording repeat_ log sections current_section exports defines cartridge_set
    x86_bits elf_header relocations].
  destruct A as (A1 & A2 & A3 & A4 & A5 & A6 & A). rewrite A1, A6. repeat split; auto; try apply A.
Qed.
Lemma put_out_agree : forall lg ln s1 s2 bits b, agree lg ln s1 s2 -> agree lg ln (put_out s1 bits b) (put_out s2 bits b).
Proof.
  intros lg ln s1 s2 bits b A. unfold agree, put_out in *. cbn [set_counter set_org set_assembled set_x86_bits assembled labels current_org
    current_org_end org_counter labels_addresses macros macro_recording repeat_ log sections current_section exports defines cartridge_set
    x86_bits elf_header relocations].
  destruct A as (A1 & A2 & A3 & A4 & A5 & A). rewrite A1, A5. repeat split; auto; try apply A.
Qed.
Lemma fits_oblivious : forall lg ln c, fits c -> plugins_oblivious lg ln c.
Proof.
  intros lg ln c (H & _ & (N1 & N2) & B). split; [|split].
  - intros k f tokens D s1 s2 A. destruct (H k f D tokens s1) as (ds & r & E & V & _).
    rewrite E. rewrite V.
    + cbn [fst snd]. split; auto. apply referring_agree. exact A.
    + unfold agree in A. unfold same_view. tauto.
  - intros k f tokens D s1 s2 A. destruct (B k f D tokens s1) as (bits & b & r & _ & E).
    rewrite (E s1), (E s2); [|unfold agree in A; unfold same_view; tauto|repeat split].
    cbn [fst snd]. split; [|reflexivity]. apply put_out_agree. exact A.
  - intros m I. rewrite N1, N2 in I. destruct I.
Qed.

(** ** Automation *)

Ltac sound := repeat split; cbn; try lia; try discriminate.
Ltac out_len := match goal with
  | H : struct_pack _ _ _ = Ok ?b |- context [zlen ?b] =>
      rewrite (struct_pack_length _ _ _ _ H); cbn
  end.
Ltac packed := cbv [pack pack_byte pack_8s pack_le32s pack_le32u pack_le64u pack_le64s pack_be32u pack_be32s
    pack_le16s pack_le16u pack_be16u pack_be16s pack_u pack_s] in *.
Ltac out := intros ? E; injection E as <-; cbn [app]; packed;
  split; [first [eapply struct_pack_byte; eassumption | constructor]
         | first [apply placed_nil | apply placed_one; cbn; try out_len; lia ]].
Ltac pure_step :=
  cbv zeta;
  lazymatch goal with
  | |- pure _ (bind (bind _ _) _) => fail
  | |- pure _ (bind (lift _) _) => eapply pure_bind; [apply pure_lift|]; intros ? ? [? ->]
  | |- pure _ (bind (ret _) _) => eapply pure_bind; [apply pure_ret with (Q := fun _ ds => ds = []); reflexivity|]; intros ? ? ->
  | |- pure _ (bind (parse_integer_or_label _ _ _) _) =>
      eapply pure_bind; [apply pure_poil; sound|]; intros ? ? [-> | [-> ->]]
  | |- pure _ (bind (tok_at _ _) _) => eapply pure_bind; [apply pure_tok|]; intros ? ? ->
  | |- pure _ (bind (m_parse_integer _ _ _ _) _) => eapply pure_bind; [apply pure_parse|]; intros ? ? [-> _]
  | |- pure _ (bind (m_label_absolute _ _) _) => eapply pure_bind; [apply pure_label|]; intros ? ? ->
  | |- pure _ (bind (add_label_translation _) _) => eapply pure_bind; [apply pure_ref; sound|]; intros ? ? ->
  | |- pure _ (bind (araise _) _) => eapply pure_bind; [apply pure_araise with (Q := fun _ _ => False)|]; intros ? ? []
  | |- pure _ (bind (praise _) _) => eapply pure_bind; [apply pure_praise with (Q := fun _ _ => False)|]; intros ? ? []
  | |- pure _ (araise _) => apply pure_araise
  | |- pure _ (praise _) => apply pure_praise
  | |- pure _ (raise _) => apply pure_raise
  | |- pure _ (ret _) => apply pure_ret
  | |- pure _ (if ?b then _ else _) => destruct b eqn:?
  | |- pure _ (match ?x with _ => _ end) => destruct x eqn:?
  end.

(** ** Tables *)

Lemma no_custom_bare : forall c, c_pre_link c = [] -> c_post_link c = [] ->
  forallb (fun kv => match snd kv with D_custom _ => false | _ => true end) (c_directives c) = true -> bare c.
Proof.
  intros c P1 P2 H. split; [split; auto|]. intros k f D.
  apply (dget_In str_eqb str_eqb_eq) in D. rewrite forallb_forall in H. apply H in D. discriminate D.
Qed.
Lemma bare_mk : forall p e ops, bare (mk_cfg p e ops [] [] []).
Proof. intros p e ops. apply no_custom_bare; [reflexivity|reflexivity|]. destruct p as [? ? ? ? ? ? ? ? [] ? ?]; vm_compute; reflexivity. Qed.
