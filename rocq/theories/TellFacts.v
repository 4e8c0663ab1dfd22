(** What a run prints, and the texts of its failures. *)
From Coq Require Import Lia.
From Verif Require Import Py PyFacts Utils Tokenizer State Assembler Report SpecExec SpecReport ExecFacts
  SubstFacts Events SpecUtils SpecParse SpecTok ReportFacts.
Local Open Scope Z_scope.

(** ** Printing *)

Lemma r_directive_eq : forall c said rasm ctx l t0 ops s g,
  r_directive c said rasm ctx l (t0 :: ops) s g =
  (let t := t0 :: map (subst_token (defines s)) ops in
   match dget str_eqb (c_directives c) (if case_sensitive (c_p c) then skipn 1 t0 else upper (skipn 1 t0)) with
   | None => rraise UnknownDirective (message_at UnknownDirective (statement_str ctx l t)) s g
   | Some d => (let+ _ := r_run_directive c said rasm d ctx l t in rret t) s g
   end).
Proof.
  intros. unfold r_directive.
  change (substitute_with_dict (t0 :: ops) (defines s) 1) with (t0 :: map (subst_token (defines s)) ops).
  cbv zeta. generalize (map (subst_token (defines s)) ops) as u. intros u.
  unfold rthen at 1, quietly. cbn [tok_at nth_error]. unfold ret. cbn [to_out to_st to_tags to_lines app].
  destruct (dget _ _ _) as [d|]; [|reflexivity].
  destruct (rthen _ _ s g). reflexivity.
Qed.

Section Printing.
  Context (c : cfg) (said : option str -> Z -> list str -> asmexc -> str).
  Hypothesis alone : plugins_keep log_alone c.
  Notation p := (c_p c).

  Definition tacit {A} (r : R A) : Prop :=
    forall s g, log (to_st (r s g)) = log s /\ to_lines (r s g) = [].
  Definition steady {A} (r : R A) : Prop :=
    forall s g, log (to_st (r s g)) = log s /\ (log s = false -> to_lines (r s g) = []).

  Lemma tacit_steady : forall A (r : R A), tacit r -> steady r.
  Proof. intros A r H s g. destruct (H s g). auto. Qed.
  Lemma tacit_ret : forall A (a : A), tacit (rret a).
  Proof. split; reflexivity. Qed.
  Lemma tacit_raise : forall A e m, tacit (@rraise A e m).
  Proof. split; reflexivity. Qed.
  Lemma tacit_then : forall A B (r : R A) (k : A -> R B), tacit r -> (forall a, tacit (k a)) -> tacit (rthen r k).
  Proof.
    intros A B r k H K s g. unfold rthen. destruct (H s g) as [H1 H2].
    destruct (to_out (r s g)) as [a|]; cbn; [|auto].
    destruct (K a (to_st (r s g)) (to_tags (r s g))) as [K1 K2]. rewrite K1, K2, H2. auto.
  Qed.
  Lemma steady_then : forall A B (r : R A) (k : A -> R B), steady r -> (forall a, steady (k a)) -> steady (rthen r k).
  Proof.
    intros A B r k H K s g. unfold rthen. destruct (H s g) as [H1 H2].
    destruct (to_out (r s g)) as [a|]; cbn; [|auto].
    destruct (K a (to_st (r s g)) (to_tags (r s g))) as [K1 K2]. split; [congruence|].
    intros E. rewrite H2, K2 by congruence. reflexivity.
  Qed.
  Lemma tacit_quietly : forall A say (m : M A), (forall s, log (fst (m s)) = log s) -> tacit (quietly say m).
  Proof.
    intros A say m H s g. unfold quietly. specialize (H s). destruct (m s) as [s' [a|[e|e]]]; split; auto.
  Qed.
  Lemma tacit_plain : forall A say E (m : M A), plain E m -> tacit (quietly say m).
  Proof. intros A say E m H. apply tacit_quietly. intros s. apply H. Qed.
  Lemma tacit_tok_at : forall say t i, tacit (quietly say (tok_at t i)).
  Proof. intros. apply (tacit_plain _ _ (fun _ => False)), plain_tok_at. Qed.
  Lemma tacit_append : forall say b, tacit (quietly say (append_assembled_bytes b)).
  Proof. intros. apply (tacit_plain _ _ (fun _ => False)), plain_append. Qed.
  Lemma tacit_store : forall say pl t, tacit (quietly say (store_tokens pl t)).
  Proof.
    intros say pl t. apply tacit_quietly. intros s. destruct pl as [|key i]; [reflexivity|].
    cbn. destruct (dget _ _ _); [|reflexivity]. destruct (nth_error _ _); reflexivity.
  Qed.

  Lemma tacit_label : forall ctx l t, tacit (r_label c ctx l t).
  Proof.
    intros ctx l t. apply tacit_then; [|intros; apply tacit_ret].
    apply (tacit_plain _ _ (fun _ => True)). unfold label_assemble. apply plain_bind; [apply plain_get|]. intros s.
    destruct (macro_recording s); [apply plain_araise; exact I|].
    apply plain_bind; [apply plain_tok_at|]. intros key.
    destruct (dmem _ _ _); [apply plain_araise; exact I|].
    destruct (negb _); [apply plain_araise; exact I|].
    apply plain_bind; [apply plain_parse; auto|]. intros [v|]; [apply plain_araise; exact I|].
    apply plain_modify. split; reflexivity.
  Qed.

  Lemma tacit_run : forall rasm d ctx l t0 t, names c t0 d -> d <> D_log -> d <> D_include ->
    tacit (r_run_directive c said rasm d ctx l t).
  Proof.
    intros rasm d ctx l t0 t N NL NI. assert (P := plain_directive c (fun _ => ret tt) d t).
    destruct d; cbn [r_run_directive]; try (apply (tacit_plain _ _ _ _ P); fail); try congruence.
    - apply tacit_then; [|intros _; intros s g; split; reflexivity].
      apply tacit_quietly. intros s. unfold macro_start, bind, get. destruct (macro_recording s); [reflexivity|].
      destruct (skipn 1 t); reflexivity.
    - apply tacit_quietly. intros s. destruct alone as [_ HA]. apply (HA _ f t s N).
  Qed.

  Lemma steady_run : forall rasm d ctx l t0 t, names c t0 d -> d <> D_log ->
    (forall f code, file_text (c_env c) f = Some code -> steady (rasm (Some f) code)) ->
    steady (r_run_directive c said rasm d ctx l t).
  Proof.
    intros rasm d ctx l t0 t N NL SA.
    destruct d; try (apply tacit_steady; eapply tacit_run; eauto; discriminate).
    cbn [r_run_directive]. unfold r_include. intros s g.
    set (m := (if negb (len_in t [2%nat]) then araise InvalidArgumentsForDirective
               else let! t1 := tok_at t 1 in let! name := lift (stringify t1) in
                    let! code := open_file (file_text (c_env c)) name in ret (name, code))).
    assert (V : fst (m s) = s /\ forall x, snd (m s) = Ok x -> file_text (c_env c) (fst x) = Some (snd x)).
    { subst m. destruct (negb _); [split; [reflexivity|discriminate]|]. unfold tok_at.
      destruct (nth_error t 1) as [t1|]; [|split; [reflexivity|discriminate]].
      unfold bind, lift, ret. destruct (stringify t1) as [nm|]; [|split; [reflexivity|discriminate]].
      unfold open_file. destruct (file_text (c_env c) nm) eqn:F; [|split; [reflexivity|discriminate]].
      cbn. split; [reflexivity|]. intros x Q. injection Q as <-. exact F. }
    unfold rthen, quietly. destruct V as [V1 V2]. destruct (m s) as [s' [x|[e|e]]]; cbn in V1, V2 |- *; subst s'; auto.
    apply SA. auto.
  Qed.

  Lemma tacit_directive : forall rasm ctx l t0 ops,
    (forall d, names c t0 d -> d <> D_log /\ d <> D_include) ->
    tacit (r_directive c said rasm ctx l (t0 :: ops)).
  Proof.
    intros rasm ctx l t0 ops NI s g. rewrite r_directive_eq.
    destruct (dget str_eqb (c_directives c) _) as [d|] eqn:D; [|apply tacit_raise].
    destruct (NI d D). apply tacit_then; [eapply tacit_run; eauto|]. intros. apply tacit_ret.
  Qed.
  Lemma steady_directive : forall rasm ctx l t0 ops,
    (forall d, names c t0 d -> d <> D_log) ->
    (forall f code, file_text (c_env c) f = Some code -> steady (rasm (Some f) code)) ->
    steady (r_directive c said rasm ctx l (t0 :: ops)).
  Proof.
    intros rasm ctx l t0 ops NL SA s g. rewrite r_directive_eq.
    destruct (dget str_eqb (c_directives c) _) as [d|] eqn:D; [|apply tacit_steady, tacit_raise].
    apply steady_then; [eapply steady_run; eauto|]. intros. apply tacit_steady, tacit_ret.
  Qed.

  Lemma tacit_opcode : forall key ctx l t, tacit (r_opcode c said key ctx l t).
  Proof.
    intros key ctx l t. unfold r_opcode. destruct (dget _ _ _) as [[b|f]|] eqn:D; [| |apply tacit_raise].
    - destruct (negb _); [apply tacit_raise|apply tacit_append].
    - apply tacit_then; [|intros; apply tacit_append]. intros s g. unfold r_call_handler.
      destruct alone as [HA _]. pose proof (HA key f t s D) as H. unfold log_alone in H.
      destruct (f t s) as [s' [[b|]|[e|e]]]; split; auto.
  Qed.

  Lemma tacit_loop : forall run key params args n i, (forall ctx l pl t, tacit (run ctx l pl t)) ->
    tacit (r_macro_loop run key params args n i).
  Proof.
    intros run key params args n. induction n as [|n IH]; intros i H; cbn [r_macro_loop]; [apply tacit_ret|].
    intros s g. destruct (dget str_eqb (macros s) key) as [m|]; [|split; reflexivity].
    destruct (nth_error (m_body m) i) as [x|]; [|split; reflexivity].
    generalize (match dget str_eqb g key with Some l => nth i l None | None => None end) as fx. intros fx.
    revert s g. change (tacit
      (let+ d := quietly message (lift (macro_dict params args [])) in
       let tokens := substitute_with_dict (s_tokens x) d 0 in
       let+ _ := quietly message (store_tokens (InMacro key i) tokens) in
       let+ _ := run fx (s_line x) (InMacro key i) tokens in
       let+ _ := quietly message (store_tokens (InMacro key i) (s_tokens x)) in
       r_macro_loop run key params args n (S i))).
    apply tacit_then; [apply tacit_quietly; reflexivity|intros d; cbv zeta].
    apply tacit_then; [apply tacit_store|intros _].
    apply tacit_then; [apply H|intros _].
    apply tacit_then; [apply tacit_store|intros _]. apply IH. exact H.
  Qed.

  Lemma tacit_instruction : forall fuel ctx l pl t, tacit (r_instruction c said fuel ctx l pl t).
  Proof.
    induction fuel as [|fuel IH]; intros ctx l pl t s g; cbn [r_instruction];
      destruct (macro_recording s) as [k|].
    1, 3: revert s g; apply tacit_then; [|intros; apply tacit_ret];
      intros s g; unfold r_record; destruct (dget _ _ _); split; reflexivity.
    all: generalize (macros s) as ms, (substitute_with_dict t (defines s) 0) as t'; intros ms t'; revert s g.
    all: apply tacit_then; [apply tacit_store|intros _].
    all: apply tacit_then; [apply tacit_tok_at|intros t0]; cbv zeta.
    all: destruct (dget str_eqb ms _) as [m|].
    - apply tacit_quietly. reflexivity.
    - apply tacit_then; [apply tacit_opcode|intros; apply tacit_ret].
    - apply tacit_then; [apply tacit_loop; auto|intros; apply tacit_ret].
    - apply tacit_then; [apply tacit_opcode|intros; apply tacit_ret].
  Qed.

  Definition stmt_free (bad : directive -> nat -> Prop) (x : stmt) : Prop :=
    forall l t0 ops d, x = Stmt KDirective (t0 :: ops) l -> names c t0 d -> ~ bad d (length ops).

  Lemma tacit_statement : forall fuel rasm ctx x, stmt_free noisy x ->
    tacit (r_statement c said fuel rasm ctx x).
  Proof.
    intros fuel rasm ctx [k t l] F. unfold r_statement. cbn [s_kind s_tokens s_line]. destruct k.
    - apply tacit_instruction.
    - apply tacit_label.
    - destruct t as [|t0 ops]; [intros s g; split; reflexivity|].
      apply tacit_directive. intros d N. split; intros E; apply (F _ _ _ d eq_refl N); [left|right]; exact E.
  Qed.
  Lemma steady_statement : forall fuel rasm ctx x, stmt_free sets_log x ->
    (forall f code, file_text (c_env c) f = Some code -> steady (rasm (Some f) code)) ->
    steady (r_statement c said fuel rasm ctx x).
  Proof.
    intros fuel rasm ctx [k t l] F SA. unfold r_statement. cbn [s_kind s_tokens s_line]. destruct k.
    - apply tacit_steady, tacit_instruction.
    - apply tacit_steady, tacit_label.
    - destruct t as [|t0 ops]; [intros s g; split; reflexivity|].
      apply steady_directive; auto. intros d N E. apply (F _ _ _ d eq_refl N). exact E.
  Qed.

  Lemma steady_statements : forall fuel rasm ctx ss, (forall x, In x ss -> stmt_free sets_log x) ->
    (forall f code, file_text (c_env c) f = Some code -> steady (rasm (Some f) code)) ->
    steady (r_statements c said fuel rasm ctx ss).
  Proof.
    intros fuel rasm ctx ss F SA. induction ss as [|x ss IH]; cbn [r_statements]; [apply tacit_steady, tacit_ret|].
    intros s0 g0. generalize (zlen (assembled s0)) as n. intros n. revert s0 g0.
    change (steady (
        (let+ tokens := r_statement c said fuel rasm ctx x in
         let+ _ := (fun s' g' =>
            if log s'
            then print (log_line (statement_str ctx (s_line x) tokens) n (assembled s')) s' g'
            else Told s' g' [] (Fine tt)) in
         r_statements c said fuel rasm ctx ss))).
    apply steady_then; [apply steady_statement; auto; apply F; left; reflexivity|].
    intros t. apply steady_then; [|intros _; apply IH; intros; apply F; right; auto].
    intros s g. destruct (log s) eqn:E; (split; [exact E|]); [congruence|reflexivity].
  Qed.

  Lemma tacit_tail : tacit (quietly message (assemble_tail c)).
  Proof.
    apply (tacit_plain _ _ (fun _ => False)). unfold assemble_tail.
    apply plain_bind; [apply plain_get|intros s]. apply plain_bind; [|intros _].
    - destruct (0 <? _); [|apply plain_ret]. destruct (_ <? _); [|apply plain_ret].
      apply plain_bind; [|intros; apply plain_append]. apply plain_python. apply python_fill.
    - apply plain_modify. intros. unfold close_section.
      destruct (current_section _) as [[|]|]; try (split; reflexivity). destruct (dget _ _ _); split; reflexivity.
  Qed.

  Lemma text_stmts : forall bad text ss x, text_free c bad text -> tokenize text = Ok ss -> In x ss -> stmt_free bad x.
  Proof. intros bad text ss x F T H l t0 ops d -> N. eapply F; eauto. Qed.

  Lemma steady_assemble : (forall n t, file_text (c_env c) n = Some t -> text_free c sets_log t) ->
    forall fuel ctx code, text_free c sets_log code -> steady (r_assemble c said fuel ctx code).
  Proof.
    intros FF. induction fuel as [|fuel IH]; intros ctx code F s g; cbn [r_assemble]; unfold rthen at 1;
      unfold r_tokenize; destruct (tokenize code) as [ss|e] eqn:T; cbn [to_out to_st to_tags to_lines]; auto.
    all: revert s g; apply (steady_then unit unit); [apply steady_statements|intros _; apply tacit_steady, tacit_tail];
      eauto using text_stmts.
    intros. apply tacit_steady, tacit_quietly. reflexivity.
  Qed.
End Printing.

(** ** Hexadecimal texts *)

Lemma digit_chr_digit : forall d, 0 <= d < 16 -> digit d (digit_chr d).
Proof.
  intros d H. split; [lia|left].
  assert (d = 0 \/ d = 1 \/ d = 2 \/ d = 3 \/ d = 4 \/ d = 5 \/ d = 6 \/ d = 7 \/ d = 8 \/
    d = 9 \/ d = 10 \/ d = 11 \/ d = 12 \/ d = 13 \/ d = 14 \/ d = 15) as B by lia.
  repeat (destruct B as [->|B]; [reflexivity|]). subst. reflexivity.
Qed.

Lemma digits_numeral : forall f n acc, 0 <= n < 16 ^ Z.of_nat f -> (1 <= f)%nat ->
  exists l, digits_of f 16 n acc = l ++ acc /\ numeral 16 l n /\
    forall w, (1 <= w)%nat -> n < 16 ^ Z.of_nat w -> (length l <= w)%nat.
Proof.
  induction f; intros n acc N F; [lia|]. cbn [digits_of]. destruct (n <? 16) eqn:E.
  - apply Z.ltb_lt in E. exists [digit_chr n]. split; [reflexivity|]. split.
    + constructor; [apply digit_chr_digit; lia|lia].
    + intros w W _. cbn; lia.
  - apply Z.ltb_ge in E. rewrite Nat2Z.inj_succ, Z.pow_succ_r in N by lia.
    assert (F0 : (1 <= f)%nat) by (destruct f; [cbn in N; lia|lia]).
    assert (D : 0 <= n / 16 < 16 ^ Z.of_nat f).
    { split; [apply Z.div_pos; lia|]. apply Z.div_lt_upper_bound; lia. }
    pose proof (Z.mod_pos_bound n 16 ltac:(lia)) as M. pose proof (Z.div_mod n 16 ltac:(lia)) as DM.
    destruct (IHf (n / 16) (digit_chr (n mod 16) :: acc) D F0) as (l & L1 & L2 & L3).
    exists (l ++ [digit_chr (n mod 16)]). rewrite L1, <- app_assoc. split; [reflexivity|]. split.
    + replace n with (n / 16 * 16 + n mod 16) at 2 by lia. constructor; auto. apply digit_chr_digit; lia. lia.
    + intros w W B. rewrite app_length. cbn [length].
      destruct w as [|w]; [lia|]. rewrite Nat2Z.inj_succ, Z.pow_succ_r in B by lia.
      destruct w as [|w]; [cbn in B; lia|].
      assert (length l <= S w)%nat; [|lia]. apply L3; [lia|]. apply Z.div_lt_upper_bound; lia.
Qed.

Lemma nat_digits_numeral : forall n, 0 <= n -> numeral 16 (nat_digits 16 n) n /\
  forall w, (1 <= w)%nat -> n < 16 ^ Z.of_nat w -> (length (nat_digits 16 n) <= w)%nat.
Proof.
  intros n N. unfold nat_digits.
  destruct (digits_numeral (S (Z.to_nat (Z.log2 n))) n []) as (l & E & L2 & L3); [|lia|].
  - split; auto. rewrite Nat2Z.inj_succ, Z2Nat.id by apply Z.log2_nonneg.
    destruct (Z.eq_dec n 0) as [->|NZ]; [cbn; lia|].
    apply Z.lt_le_trans with (2 ^ Z.succ (Z.log2 n)); [apply Z.log2_spec; lia|].
    apply Z.pow_le_mono_l. lia.
  - rewrite E, app_nil_r. auto.
Qed.

Lemma numeral_zero : forall s v, numeral 16 s v -> numeral 16 ("0"%char :: s) v.
Proof.
  assert (Z0 : digit 0 "0") by (split; [lia|left; reflexivity]).
  intros s v H. induction H as [ch d D L|s v ch d N IH D L].
  - change ["0"%char; ch] with (["0"%char] ++ [ch]). replace d with (0 * 16 + d) by lia.
    constructor; auto. constructor; auto; lia.
  - change ("0"%char :: s ++ [ch]) with (("0"%char :: s) ++ [ch]). constructor; auto.
Qed.

Lemma numeral_nonempty : forall b s v, numeral b s v -> (1 <= length s)%nat.
Proof. intros b s v H. destruct H; [cbn|rewrite app_length; cbn]; lia. Qed.

Lemma hex_byte_text : forall v, is_byte v -> exists ds, hex_byte v = #"0x" ++ ds /\ length ds = 2%nat /\ numeral 16 ds v.
Proof.
  intros v V. unfold is_byte in V. destruct (nat_digits_numeral v ltac:(lia)) as [N L].
  unfold hex_byte. eexists. split; [reflexivity|]. specialize (L 2%nat ltac:(lia) ltac:(cbn; lia)).
  pose proof (numeral_nonempty _ _ _ N). rewrite app_length, repeat_length. split; [lia|].
  generalize (2 - length (nat_digits 16 v))%nat as k. induction k; [exact N|]. cbn [repeat app]. apply numeral_zero. exact IHk.
Qed.

Lemma hex_bytes_texts : forall bs, Forall is_byte bs -> hex_texts bs (map hex_byte bs).
Proof. induction 1; constructor; auto. apply hex_byte_text. auto. Qed.

(** ** The log *)

Lemma exec_output : forall c fuel ss s, plugins_keep only_appends c ->
  only_appends s (fst (exec c fuel ss s)).
Proof.
  intros c fuel ss s P. apply (events_keep c (registered c) output_kept).
  - intros. apply extends_refl.
  - intros a b d. apply extends_trans.
  - apply output_event. exact P.
  - unfold exec. apply runs_iter. intros x s' _. unfold statement_assemble.
    destruct (s_kind x); [apply runs_instruction|apply runs_label|]. apply runs_directive_assemble.
    + intros d tokens' D _. unfold directive_of in D. destruct (s_tokens x); [discriminate|]. eexists; eauto.
    + intros n code s2 _. destruct fuel; [constructor|apply assemble_registered].
Qed.

(** The tokens at the end of a statement. *)
Lemma statement_tokens : forall c said fuel rasm ctx x s g t,
  to_out (r_statement c said fuel rasm ctx x s g) = Fine t -> shown s x t.
Proof.
  intros c said fuel rasm ctx [k tk l] s g t. unfold r_statement, shown. cbn [s_kind s_tokens s_line]. destruct k.
  - assert (X : forall A B (r : R A) (k : A -> R B) (Q : B -> Prop), (forall a s g b, to_out (k a s g) = Fine b -> Q b) ->
              forall s g b, to_out (rthen r k s g) = Fine b -> Q b).
    { intros A B r k Q K s0 g0 b. unfold rthen. destruct (to_out (r s0 g0)); [|discriminate]. cbn. apply K. }
    destruct fuel as [|fuel]; cbn [r_instruction]; destruct (macro_recording s) as [key|].
    1, 3: intros H; left; split; [discriminate|]; revert H; apply (X _ _ _ _ (fun t => t = tk));
      intros; unfold rret in *; cbn in *; congruence.
    all: intros H; right; split; [reflexivity|].
    all: assert (E : t = map (subst_token (defines s)) tk); [|subst t; unfold reads].
    2, 4: clear; induction tk; constructor; auto; apply subst_token_substituted.
    all: revert H; change (substitute_with_dict tk (defines s) 0) with (map (subst_token (defines s)) tk).
    all: generalize (map (subst_token (defines s)) tk) as u, (macros s) as ms; intros u ms; revert s g t.
    all: refine (X _ _ _ _ (fun t => t = u) _); intros _; refine (X _ _ _ _ (fun t => t = u) _); intros t0; cbv zeta.
    all: destruct (dget str_eqb ms _).
    2, 3, 4: refine (X _ _ _ _ (fun t => t = u) _); intros; unfold rret in *; cbn in *; congruence.
    intros. unfold quietly, praise in H. discriminate.
  - unfold r_label, rthen, rret. destruct (to_out (quietly _ _ s g)); [|discriminate]. cbn. congruence.
  - destruct tk as [|t0 ops]; [discriminate|]. rewrite r_directive_eq. cbv zeta. destruct (dget _ _ _) as [d|]; [|discriminate].
    unfold rthen, rret. destruct (to_out (r_run_directive _ _ _ _ _ _ _ _ _)); [|discriminate]. cbn. intros H. injection H as <-.
    exists t0, ops, (map (subst_token (defines s)) ops). split; [reflexivity|]. split; [reflexivity|].
    unfold reads. clear. induction ops; constructor; auto; apply subst_token_substituted.
Qed.

Lemma log_line_entry : forall w a bs, Forall is_byte bs ->
  log_entry w (zlen a) bs (log_line w (zlen a) (a ++ bs)).
Proof.
  intros w a bs B. unfold log_line. destruct bs as [|b bs].
  - rewrite app_nil_r, Z.eqb_refl. constructor.
  - assert (E : zlen (a ++ b :: bs) =? zlen a = false).
    { apply Z.eqb_neq. unfold zlen. rewrite app_length. cbn. lia. }
    rewrite E. replace (skipn (Z.to_nat (zlen a)) (a ++ b :: bs)) with (b :: bs).
    + constructor; [discriminate|apply hex_bytes_texts; exact B|]. apply nat_digits_numeral. unfold zlen. lia.
    + unfold zlen. rewrite Nat2Z.id, skipn_app, Nat.sub_diag, skipn_all. reflexivity.
Qed.

Lemma extends_bytes : forall a b : bytes, extends a b -> Forall is_byte b -> Forall is_byte a.
Proof. intros a b [t ->] F. apply Forall_app in F. tauto. Qed.

Lemma statements_step : forall c said fuel rasm ctx x ss s g s1 g1 l1 t,
  r_statement c said fuel rasm ctx x s g = Told s1 g1 l1 (Fine t) ->
  let r := r_statements c said fuel rasm ctx ss s1 g1 in
  r_statements c said fuel rasm ctx (x :: ss) s g =
  Told (to_st r) (to_tags r)
    (l1 ++ (if log s1 then [log_line (statement_str ctx (s_line x) t) (zlen (assembled s)) (assembled s1)] else []) ++ to_lines r)
    (to_out r).
Proof.
  intros c said fuel rasm ctx x ss s g s1 g1 l1 t E. cbn [r_statements]. unfold rthen at 1. rewrite E.
  cbn [to_st to_tags to_lines to_out]. unfold rthen, print. destruct (log s1); reflexivity.
Qed.
Lemma statements_stop : forall c said fuel rasm ctx x ss s g s1 g1 l1 e t,
  r_statement c said fuel rasm ctx x s g = Told s1 g1 l1 (Raised e t) ->
  r_statements c said fuel rasm ctx (x :: ss) s g = Told s1 g1 l1 (Raised e t).
Proof.
  intros c said fuel rasm ctx x ss s g s1 g1 l1 e t E. cbn [r_statements]. unfold rthen at 1. rewrite E. reflexivity.
Qed.

Section Logging.
  Context (c : cfg) (said : option str -> Z -> list str -> asmexc -> str).
  Hypothesis alone : plugins_keep log_alone c.
  Hypothesis macros_kept : plugins_keep macros_alone c.
  Hypothesis appends : plugins_keep only_appends c.

  Definition r_asm (fuel : nat) : option str -> str -> R unit :=
    match fuel with O => fun _ _ => quietly message (praise RecursionError) | S f => r_assemble c said f end.
  Lemma r_asm_shows : forall fuel f code s, shows_at (r_asm fuel f code)
    ((match fuel with O => fun _ => praise RecursionError | S f => assemble c f end) code) s.
  Proof. intros [|fuel] f code s; cbn [r_asm]; [apply quietly_shows|apply assemble_shows; auto]. Qed.
  Lemma r_assemble_eq : forall fuel ctx code, r_assemble c said fuel ctx code =
    (let+ ss := r_tokenize code in
     let+ _ := r_statements c said fuel (r_asm fuel) ctx ss in quietly message (assemble_tail c)).
  Proof. intros [|fuel]; reflexivity. Qed.

  Lemma statements_logged : forall fuel ctx ss s g, log s = true -> (forall x, In x ss -> stmt_free c noisy x) ->
    to_out (r_statements c said fuel (r_asm fuel) ctx ss s g) = Fine tt ->
    Forall is_byte (assembled (to_st (r_statements c said fuel (r_asm fuel) ctx ss s g))) ->
    log (to_st (r_statements c said fuel (r_asm fuel) ctx ss s g)) = true /\
    logged c fuel ctx s ss (to_st (r_statements c said fuel (r_asm fuel) ctx ss s g))
      (to_lines (r_statements c said fuel (r_asm fuel) ctx ss s g)).
  Proof.
    intros fuel ctx ss. induction ss as [|x ss IH]; intros s g LG F; [split; [exact LG|constructor]|].
    assert (NF : stmt_free c noisy x) by (apply F; left; reflexivity).
    destruct (tacit_statement c said alone fuel (r_asm fuel) ctx x NF s g) as [T1 T2].
    destruct (statement_shows c said macros_kept fuel (r_asm fuel)
       (match fuel with O => fun _ => praise RecursionError | S f => assemble c f end) ctx x s (r_asm_shows fuel) g) as [S1 S2].
    pose proof (statement_tokens c said fuel (r_asm fuel) ctx x s g) as TK.
    destruct (r_statement c said fuel (r_asm fuel) ctx x s g) as [s1 g1 l1 [t|e t]] eqn:ST; cbn [to_st to_tags to_lines to_out] in *.
    2: { rewrite (statements_stop _ _ _ _ _ _ ss _ _ _ _ _ _ _ ST). discriminate. }
    rewrite (statements_step _ _ _ _ _ _ ss _ _ _ _ _ _ ST). rewrite LG in T1. rewrite T1.
    cbn [to_st to_tags to_lines to_out].
    intros O B. assert (E : exec c fuel [x] s = (s1, Ok tt)).
    { unfold exec. cbn [iter]. unfold bind. cbn [finish] in S2.
      destruct (statement_assemble c fuel _ x s) as [s1' r]. cbn in S1, S2. subst. reflexivity. }
    destruct (IH s1 g1 T1 ltac:(intros; apply F; right; auto) O B) as [IH1 IH2]. split; [exact IH1|].
    subst l1. cbn [app].
    pose proof (exec_output c fuel [x] s appends) as [bs EX]. rewrite E in EX. cbn [fst] in EX.
    assert (B1 : Forall is_byte (assembled s1)).
    { destruct (statements_shows c said macros_kept fuel (r_asm fuel)
         (match fuel with O => fun _ => praise RecursionError | S f => assemble c f end) ctx ss s1 (r_asm_shows fuel) g1) as [Q1 _].
      pose proof (exec_output c fuel ss s1 appends) as EX1. unfold exec in EX1. unfold only_appends in EX1.
      rewrite <- Q1 in EX1. eapply extends_bytes; eauto. }
    econstructor; eauto.
    rewrite EX, <- place_text_eq. apply log_line_entry. rewrite EX in B1. apply Forall_app in B1. tauto.
  Qed.
End Logging.

(** ** Failures *)

Lemma step_line : forall t ch t', tok_step t ch = Ok t' -> t_line t' = t_line t.
Proof.
  intros t ch t' H. unfold tok_step, state_token, token_colon, token_spaces, token_brackets, state_quoted in H.
  destruct (t_state t); repeat match type of H with
    | context [if ?b then _ else _] => destruct b
    | context [match t_tokens t with _ => _ end] => destruct (t_tokens t)
    end; try discriminate; injection H as <-; try reflexivity.
Qed.
Lemma step_colon : forall t ch e, tok_step t ch = Err e -> ch = ":"%char.
Proof.
  intros t ch e H. unfold tok_step in H. destruct (t_state t); try discriminate.
  unfold state_token in H. destruct (Ascii.eqb ch ":") eqn:E; [apply Ascii.eqb_eq in E; exact E|].
  repeat match type of H with (if ?b then _ else _) = _ => destruct b end; discriminate.
Qed.

Lemma fail_split : forall code t e, tok_run t code = Err e ->
  exists pre rest t', code = pre ++ ":"%char :: rest /\ tok_run t pre = Ok t' /\ tok_step t' ":" = Err e /\
    fail_line t code = t_line t + newlines pre.
Proof.
  induction code as [|ch code IH]; intros t e H; [discriminate|]. cbn [tok_run fail_line] in *. unfold rbind in H.
  destruct (tok_step t ch) as [t1|e1] eqn:S.
  - destruct (IH _ _ H) as (pre & rest & t' & -> & R & ST & F). exists (ch :: pre), rest, t'.
    split; [reflexivity|]. cbn [tok_run]. unfold rbind. rewrite S. split; [exact R|]. split; [exact ST|].
    rewrite F. pose proof (step_line _ _ _ S) as L. unfold bump_line. cbn [newlines].
    change newline with nl. destruct (Ascii.eqb ch nl); cbn [t_line]; rewrite L; lia.
  - injection H as ->. pose proof (step_colon _ _ _ S) as ->. exists [], code, t. cbn [newlines].
    repeat split; auto. lia.
Qed.

Lemma run_nl : forall t, exists t', tok_run t [nl] = Ok t'.
Proof.
  intros t. cbn [tok_run]. unfold rbind. destruct (tok_step t nl) as [t'|e] eqn:S; [eauto|].
  apply step_colon in S. discriminate.
Qed.
Lemma run_app : forall a b t, tok_run t (a ++ b) = let? t' := tok_run t a in tok_run t' b.
Proof.
  induction a as [|ch a IH]; intros b t; [reflexivity|]. cbn [app tok_run]. unfold rbind.
  destruct (tok_step t ch); [apply IH|reflexivity].
Qed.

Lemma colon_line : forall code e, tokenize code = Err e ->
  exists pre rest, code = pre ++ ":"%char :: rest /\ (exists ss, tokenize pre = Ok ss) /\
    (exists e', tokenize (pre ++ [":"%char]) = Err e') /\
    fail_line tok_init (code ++ [nl]) = 1 + newlines pre.
Proof.
  intros code e H. unfold tokenize, rbind in H. destruct (tok_run tok_init (code ++ [nl])) as [|e'] eqn:R; [discriminate|].
  destruct (fail_split _ _ _ R) as (pre & rest & t' & E & R1 & S & F).
  destruct (exists_last (l := ":"%char :: rest) ltac:(discriminate)) as (rest' & z & Q).
  assert (Z : z = nl /\ code = pre ++ rest').
  { rewrite Q, app_assoc in E. apply app_inj_tail in E. destruct E. auto. }
  destruct Z as [-> ->]. destruct rest' as [|q rest']; [discriminate|]. injection Q as <- ->.
  exists pre, rest'. split; [reflexivity|]. split; [|split].
  - unfold tokenize, rbind. rewrite run_app, R1. cbn [rbind]. destruct (run_nl t') as [t2 ->]. eauto.
  - unfold tokenize. rewrite <- app_assoc, run_app, R1. cbn [rbind app tok_run]. rewrite S. cbn. eauto.
  - rewrite F. reflexivity.
Qed.

Section Failing.
  Context (c : cfg) (said : option str -> Z -> list str -> asmexc -> str).
  Hypothesis macros_kept : plugins_keep macros_alone c.
  Notation r_asm := (r_asm c said).
  Notation asm fuel := (match fuel with O => fun _ => praise RecursionError | S f => assemble c f end).

  Lemma block_then : forall fuel ctx pre x post s g s1, exec c fuel pre s = (s1, Ok tt) ->
    exists g1, (forall L, known_bodies L s g -> (forall y, In y pre -> L ctx (s_line y)) ->
        (forall f text ss y, file_text (c_env c) f = Some text -> tokenize text = Ok ss -> In y ss -> L (Some f) (s_line y)) ->
        known_bodies L s1 g1) /\
      forall e t, to_out (r_statement c said fuel (r_asm fuel) ctx x s1 g1) = Raised e t ->
        to_out (r_statements c said fuel (r_asm fuel) ctx (pre ++ x :: post) s g) = Raised e t.
  Proof.
    intros fuel ctx pre x post. induction pre as [|y pre IH]; intros s g s1 E.
    - injection E as <-. exists g. split; [auto|]. intros e t H. cbn [app].
      destruct (r_statement c said fuel (r_asm fuel) ctx x s g) as [s2 g2 l2 o] eqn:ST. cbn in H. subst o.
      rewrite (statements_stop _ _ _ _ _ _ post _ _ _ _ _ _ _ ST). reflexivity.
    - unfold exec in E. cbn [iter] in E. unfold bind in E.
      destruct (statement_shows c said macros_kept fuel (r_asm fuel) (asm fuel) ctx y s (r_asm_shows c said macros_kept fuel) g) as [S1 S2].
      assert (KB : forall L, known_bodies L s g -> L ctx (s_line y) ->
        (forall f text ss y, file_text (c_env c) f = Some text -> tokenize text = Ok ss -> In y ss -> L (Some f) (s_line y)) ->
        known_bodies L (to_st (r_statement c said fuel (r_asm fuel) ctx y s g)) (to_tags (r_statement c said fuel (r_asm fuel) ctx y s g))).
      { intros L K LY FL.
        assert (AH : forall f code, file_text (c_env c) f = Some code -> holds c said L (r_asm fuel (Some f) code)).
        { intros f code FT. destruct fuel as [|fuel]; cbn [TellFacts.r_asm].
          - apply (holds_quietly _ _ _ _ _ (fun _ => False)); [apply plain_praise|]. intros e [].
          - apply assemble_holds; eauto. }
        unfold r_statement. destruct (s_kind y).
        - apply instruction_holds; auto.
        - apply label_holds; auto.
        - apply directive_holds; auto. }
      destruct (statement_assemble c fuel (asm fuel) y s) as [s0 [u|e]]; [|discriminate].
      destruct (r_statement c said fuel (r_asm fuel) ctx y s g) as [s' g' l' o] eqn:ST.
      cbn [to_st to_tags to_out finish fst snd] in *. destruct o as [tk|]; [|discriminate]. subst s'.
      destruct (IH s0 g' s1 E) as (g1 & G1 & G2). exists g1. split.
      + intros L K LY FL. apply G1; auto; [|intros; apply LY; right; auto]. apply KB; auto. apply LY. left. reflexivity.
      + intros e t H. cbn [app]. rewrite (statements_step _ _ _ _ _ _ (pre ++ x :: post) _ _ _ _ _ _ ST). cbn [to_out]. auto.
  Qed.

  Lemma program_then : forall fuel ctx code pre x post s g s1, tokenize code = Ok (pre ++ x :: post) ->
    exec c fuel pre s = (s1, Ok tt) ->
    exists g1, (forall L, known_bodies L s g -> (forall y, In y pre -> L ctx (s_line y)) ->
        (forall f text ss y, file_text (c_env c) f = Some text -> tokenize text = Ok ss -> In y ss -> L (Some f) (s_line y)) ->
        known_bodies L s1 g1) /\
      forall e t, to_out (r_statement c said fuel (r_asm fuel) ctx x s1 g1) = Raised e t ->
        to_out (r_assemble c said fuel ctx code s g) = Raised e t.
  Proof.
    intros fuel ctx code pre x post s g s1 T E.
    destruct (block_then fuel ctx pre x post s g s1 E) as (g1 & G1 & G2). exists g1. split; [exact G1|].
    intros e t H. specialize (G2 e t H). rewrite r_assemble_eq. unfold rthen at 1, r_tokenize. rewrite T.
    cbn [to_out to_st to_tags]. unfold rthen at 1. rewrite G2. reflexivity.
  Qed.

  Lemma statements_split : forall fuel ctx pre s g s1, exec c fuel pre s = (s1, Ok tt) ->
    exists g1 ls0, forall post, let r := r_statements c said fuel (r_asm fuel) ctx post s1 g1 in
      r_statements c said fuel (r_asm fuel) ctx (pre ++ post) s g =
      Told (to_st r) (to_tags r) (ls0 ++ to_lines r) (to_out r).
  Proof.
    intros fuel ctx pre. induction pre as [|y pre IH]; intros s g s1 E.
    - injection E as <-. exists g, []. intros post. cbn [app]. destruct (r_statements _ _ _ _ _ post s g). reflexivity.
    - unfold exec in E. cbn [iter] in E. unfold bind in E.
      destruct (statement_shows c said macros_kept fuel (r_asm fuel) (asm fuel) ctx y s (r_asm_shows c said macros_kept fuel) g) as [S1 S2].
      destruct (statement_assemble c fuel (asm fuel) y s) as [s0 [u|e]]; [|discriminate].
      destruct (r_statement c said fuel (r_asm fuel) ctx y s g) as [s' g' l' o] eqn:ST.
      cbn [to_st to_tags to_out finish fst snd] in *. destruct o as [tk|]; [|discriminate]. subst s'.
      destruct (IH s0 g' s1 E) as (g1 & ls0 & H). exists g1. eexists. intros post. cbn [app].
      rewrite (statements_step _ _ _ _ _ _ (pre ++ post) _ _ _ _ _ _ ST). rewrite H. cbn [to_st to_tags to_lines to_out].
      rewrite !app_assoc. reflexivity.
  Qed.

  (** What the statement raises, without its text. *)
  Lemma statement_raises : forall fuel ctx x s g s' e, exec c fuel [x] s = (s', Err e) ->
    exists t, to_out (r_statement c said fuel (r_asm fuel) ctx x s g) = Raised e t.
  Proof.
    intros fuel ctx x s g s' e E. unfold exec in E. cbn [iter] in E. unfold bind in E.
    destruct (statement_shows c said macros_kept fuel (r_asm fuel) (asm fuel) ctx x s (r_asm_shows c said macros_kept fuel) g) as [S1 S2].
    destruct (statement_assemble c fuel (asm fuel) x s) as [s0 [u|e0]]; [discriminate|]. injection E as _ ->. cbn in S2.
    destruct (to_out _) as [|e1 t]; [discriminate|]. injection S2 as ->. eauto.
  Qed.
End Failing.
