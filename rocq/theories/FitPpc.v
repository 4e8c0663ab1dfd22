(** The PowerPC handlers are well-behaved. *)
From Coq Require Import Lia.
From Verif Require Import Py PyFacts Utils Tokenizer State Assembler Instr Ppc.
From Verif Require Import SpecUtils SpecExec SpecLink SpecCpu Events CpuFacts FitFacts FitInstr FitMips I86Read FitI86 SpecPpc PpcFacts PpcEnc.
Local Open Scope Z_scope.

Definition sized (i : item) : bool :=
  let '(pos, len, k) := i in match kind_op k with None | Some Gpr | Some Gpr0 | Some Fpr => true | _ => (1 <=? len) && (0 <=? pos) end.
Definition all_sized : bool := forallb (fun '(_, (_, cs)) => forallb (fun c => forallb sized (cond_items c)) cs) ppc_opcodes.
Lemma sized_true : all_sized = true.
Proof. vm_cast_no_check (eq_refl true). Qed.
Strategy expand [all_sized].

Definition wholes (ds : list labeldata) : Prop := Forall (whole 4) ds.
Lemma value_wholes : forall t pos len rel g sg, 1 <= len -> 0 <= pos -> pure (fun _ ds => wholes ds) (ppc_value t (pos + len - 1, pos) rel g sg).
Proof.
  intros t pos len rel g sg L P. unfold ppc_value. cbn [fst snd]. eapply pure_weaken.
  - apply poil_whole; [|split; reflexivity]. repeat split; cbn; try lia. intros b E. injection E as <-. cbn [snd]. lia.
  - intros _ ds [-> |(d & -> & W)]; repeat constructor; apply W.
Qed.
Lemma reg_wholes : forall t, pure (fun _ ds => wholes ds) (reg_number t).
Proof. intros t. unfold reg_number. destruct (py_int _ _); [apply pure_ret; constructor|apply pure_praise]. Qed.
Lemma eval_wholes : forall i t, sized i = true -> pure (fun _ ds => wholes ds) (kind_eval (item_kind i) t (item_bits i)).
Proof.
  intros [[pos len] k] t S. unfold sized in S. unfold item_kind, item_bits. cbn [snd].
  destruct k; cbn [kind_op] in S; cbn [kind_eval]; try apply pure_praise; try apply reg_wholes;
    try (apply andb_prop in S; destruct S as [S1 S2]; apply Z.leb_le in S1, S2); try (apply value_wholes; assumption).
  - destruct (str_eqb t #"0"); [apply pure_ret; constructor|apply reg_wholes].
  - apply pure_pc with (k := fun z => ppc_value t (pos + len - 1, pos) z (Some (fun x => Z.shiftr x 2)) false). intros z. apply value_wholes; assumption.
Qed.
Lemma fields_wholes : forall c ts, forallb sized c = true -> pure (fun _ ds => wholes ds) (ppc_fields c ts).
Proof.
  induction c as [|i c IH]; intros ts S; cbn [ppc_fields]; [apply pure_ret; constructor|]. destruct ts as [|t ts]; [apply pure_praise|].
  cbn [forallb] in S. apply andb_prop in S. destruct S as [S1 S2]. eapply pure_bind; [apply eval_wholes; exact S1|]. intros v ds W.
  eapply pure_bind; [apply IH; exact S2|]. intros r es W2. apply pure_ret. rewrite app_nil_r. apply Forall_app. split; assumption.
Qed.
Lemma wholes_last : forall ds, wholes ds -> Forall sound_ref ds -> exists ds', (forall s, referring s ds = referring s ds') /\ Forall sound_ref ds' /\ at_most (whole 4) ds'.
Proof.
  induction ds as [|d ds IH] using rev_ind; intros W S; [exists []; repeat split; [constructor|left; reflexivity]|].
  apply Forall_app in W, S. destruct W as [W1 W2], S as [S1 S2]. destruct (IH W1 S1) as (ds' & E & SD & AM). exists [d]. split; [|split; [exact S2|]].
  - intros s. rewrite referring_app, E. destruct AM as [-> |(d' & -> & O & _)]; [reflexivity|]. inversion W2 as [|? ? [O2 _] _]; subst. apply referring_twice. congruence.
  - right. exists d. inversion W2; subst. auto.
Qed.
Lemma word_good : forall b ds, wholes ds /\ Forall sound_ref ds -> (forall x, b = Some x -> Forall is_byte x /\ zlen x = 4) -> good b ds.
Proof.
  intros b ds [W S] B. destruct (wholes_last ds W S) as (ds' & E & SD & AM). exists ds'. split; [exact E|]. split; [exact SD|].
  intros x X. destruct (B x X) as [B1 B2]. split; [exact B1|]. rewrite B2. apply placed_whole. exact AM.
Qed.
Lemma pack_good : forall v b, pack_be32u [Some v] = Ok b -> Forall is_byte b /\ zlen b = 4.
Proof. intros v b H. packed. split; [eapply struct_pack_byte; eassumption|out_len; reflexivity]. Qed.
Lemma ppc_pure : forall base cs tokens, forallb (fun c => forallb sized (cond_items c)) cs = true -> pure good (ppc_call base cs tokens).
Proof.
  intros base cs tokens. induction cs as [|[c|] cs IH]; intros S; cbn [ppc_call].
  - apply pure_ret. apply word_good; [split; constructor|discriminate].
  - cbn [forallb cond_items] in S. apply andb_prop in S. destruct S as [S1 S2]. destruct (imatch _ _ _); [|apply IH; exact S2].
    eapply pure_bind; [apply pure_sound, fields_wholes; exact S1|]. intros fs ds W. eapply pure_bind; [apply pure_lift|]. intros v es [_ ->].
    eapply pure_bind; [apply pure_lift|]. intros b es [P ->]. apply pure_ret. cbn [app]. rewrite !app_nil_r. apply word_good; [exact W|].
    intros x E. injection E as <-. eapply pack_good; exact P.
  - cbn [forallb cond_items] in S. destruct (Nat.eqb _ _); [|apply IH; exact S].
    eapply pure_bind; [apply pure_lift|]. intros b es [P ->]. apply pure_ret. cbn [app]. apply word_good; [split; constructor|].
    intros x E. injection E as <-. eapply pack_good; exact P.
Qed.
Lemma ppc_fits : forall e, fits (powerpc e) /\ handlers neat (powerpc e).
Proof.
  intros e. assert (H : handlers (fun f => well_behaved f /\ neat f) (powerpc e)).
  { intros k f D. rewrite ppc_get in D. destruct (dget str_eqb ppc_opcodes k) as [[b cs]|] eqn:X; [|discriminate D]. injection D as <-.
    apply good_handler. intros tokens. apply ppc_pure. apply (PyFacts.dget_In str_eqb str_eqb_eq) in X.
    pose proof sized_true as Z. unfold all_sized in Z. rewrite forallb_forall in Z. exact (Z _ X). }
  split; [split; [|split]|].
  - intros k f D. apply (H k f D).
  - intros k b D. rewrite ppc_get in D. destruct (dget str_eqb ppc_opcodes k) as [[]|]; discriminate D.
  - apply bare_mk.
  - intros k f D. apply (H k f D).
Qed.
