(** Proofs about the tokenizer (tokenizer.py). *)
From Coq Require Import Lia.
From Verif Require Import Py PyFacts Tokenizer SpecTok.
Local Open Scope Z_scope.

(** ** Character classes *)

Lemma chr_in_false_intro : forall c l, ~ In c l -> chr_in c l = false.
Proof. intros. apply chr_in_not. auto. Qed.
Lemma chr_in_true_intro : forall c l, In c l -> chr_in c l = true.
Proof. intros. apply chr_in_In. auto. Qed.

Lemma eqb_neq : forall a b : ascii, a <> b -> Ascii.eqb a b = false.
Proof. intros. apply Ascii.eqb_neq. auto. Qed.

Lemma newlines_app : forall a b, newlines (a ++ b) = newlines a + newlines b.
Proof. induction a; intros; cbn [app newlines]; [reflexivity|]. rewrite IHa. ring. Qed.

Definition bumped (c : ascii) (n : Z) : Z := n + newlines [c].

Lemma bump_line_eq : forall st cur toks ss n c,
  bump_line (Tok st cur toks ss n) c = Tok st cur toks ss (n + newlines [c]).
Proof.
  intros. unfold bump_line. cbn [newlines t_state t_cur t_tokens t_stmts t_line].
  change nl with newline. destruct (Ascii.eqb c newline); f_equal; ring.
Qed.

Lemma tok_run_app : forall a b t,
  tok_run t (a ++ b) = let? t' := tok_run t a in tok_run t' b.
Proof.
  induction a; intros; cbn [app tok_run rbind]; auto.
  destruct (tok_step t a); cbn [rbind]; auto.
Qed.

Lemma tok_run_cons : forall c s t,
  tok_run t (c :: s) = let? t' := tok_step t c in tok_run (bump_line t' c) s.
Proof. reflexivity. Qed.

Lemma step_word : forall cur toks ss n c, is_word_char c ->
  tok_step (Tok TToken cur toks ss n) c = Ok (Tok TToken (cur ++ [c]) toks ss n).
Proof.
  intros cur toks ss n c (S & B & Q & N & R & M & C).
  unfold tok_step, state_token. cbn [t_state t_cur t_tokens t_stmts t_line].
  rewrite chr_in_false_intro.
  2:{ intros I. cbn in I. unfold is_sep in S. cbn in S.
      destruct I as [I|[I|[I|[I|[I|[I|[]]]]]]]; subst; try tauto; auto. }
  rewrite chr_in_false_intro by exact B.
  rewrite eqb_neq by auto.
  rewrite eqb_neq by (intro; subst; apply Q; left; reflexivity).
  rewrite eqb_neq by (intro; subst; apply Q; right; left; reflexivity).
  reflexivity.
Qed.

Lemma word_newlines : forall w, Forall is_word_char w -> newlines w = 0.
Proof.
  induction 1 as [|c w (S & B & Q & N & _)]; cbn [newlines]; auto.
  rewrite eqb_neq by auto. rewrite IHForall. reflexivity.
Qed.

Lemma run_word : forall w cur toks ss n, Forall is_word_char w ->
  tok_run (Tok TToken cur toks ss n) w = Ok (Tok TToken (cur ++ w) toks ss n).
Proof.
  induction w; intros cur toks ss n F.
  - rewrite app_nil_r. reflexivity.
  - inversion F; subst. rewrite tok_run_cons, step_word by auto. cbn [rbind].
    rewrite bump_line_eq. rewrite (word_newlines [a]) by (constructor; auto).
    rewrite Z.add_0_r, IHw by auto. rewrite <- app_assoc. reflexivity.
Qed.

Lemma flush_nil : forall w toks, flush w [] toks = toks.
Proof. reflexivity. Qed.
Lemma flush_cons : forall w cur toks, cur <> [] -> flush w cur toks = toks ++ [w cur].
Proof. intros. destruct cur; [congruence|reflexivity]. Qed.

Lemma step_sep : forall cur toks ss n c, is_sep c ->
  tok_step (Tok TToken cur toks ss n) c = Ok (Tok TToken [] (flush id cur toks) ss n).
Proof.
  intros cur toks ss n c S. cbn in S.
  destruct S as [S|[S|[S|[]]]]; subst; reflexivity.
Qed.

Lemma sep_newlines : forall c, is_sep c -> newlines [c] = 0.
Proof. intros c S. cbn in S. destruct S as [S|[S|[S|[]]]]; subst; reflexivity. Qed.
Lemma bracket_newlines : forall c, is_bracket c -> newlines [c] = 0.
Proof.
  intros c S. cbn in S.
  repeat (destruct S as [S|S]; [subst; reflexivity|]). destruct S.
Qed.
Lemma quote_newlines : forall c, is_quote c -> newlines [c] = 0.
Proof. intros c S. cbn in S. destruct S as [S|[S|[]]]; subst; reflexivity. Qed.

Lemma step_bracket : forall cur toks ss n c, is_bracket c ->
  tok_step (Tok TToken cur toks ss n) c
  = Ok (Tok TToken [] (flush id cur toks ++ [[c]]) ss n).
Proof.
  intros cur toks ss n c S. cbn in S.
  repeat (destruct S as [S|S]; [subst; reflexivity|]). destruct S.
Qed.

(** The quoted state and its escape state for a quote character. *)
Definition qstate (q : ascii) : tstate := if Ascii.eqb q dquote then TString else TChar.
Definition estate (q : ascii) : tstate := if Ascii.eqb q dquote then TEscString else TEscChar.

Lemma step_open : forall cur toks ss n q, is_quote q ->
  tok_step (Tok TToken cur toks ss n) q = Ok (Tok (qstate q) [] (flush id cur toks) ss n).
Proof. intros cur toks ss n q S. cbn in S. destruct S as [S|[S|[]]]; subst; reflexivity. Qed.

Lemma step_close : forall cur toks ss n q, is_quote q ->
  tok_step (Tok (qstate q) cur toks ss n) q
  = Ok (Tok TToken [] (flush (quoted q) cur toks) ss n).
Proof. intros cur toks ss n q S. cbn in S. destruct S as [S|[S|[]]]; subst; reflexivity. Qed.

Lemma step_raw : forall cur toks ss n q c, is_quote q -> c <> q -> c <> "\"%char ->
  tok_step (Tok (qstate q) cur toks ss n) c
  = Ok (Tok (qstate q) (cur ++ [c]) toks ss n).
Proof.
  intros cur toks ss n q c S Nq Nb. cbn in S.
  unfold tok_step. cbn [t_state].
  destruct S as [S|[S|[]]]; subst q;
    match goal with |- context [qstate ?q] => let v := eval vm_compute in (qstate q) in
      change (qstate q) with v end; cbv iota;
    unfold state_quoted; rewrite eqb_neq by exact Nb; rewrite eqb_neq by exact Nq; reflexivity.
Qed.

Lemma step_backslash : forall cur toks ss n q, is_quote q ->
  tok_step (Tok (qstate q) cur toks ss n) "\" = Ok (Tok (estate q) cur toks ss n).
Proof. intros cur toks ss n q S. cbn in S. destruct S as [S|[S|[]]]; subst; reflexivity. Qed.

Lemma step_escaped : forall cur toks ss n q c, is_quote q ->
  tok_step (Tok (estate q) cur toks ss n) c = Ok (Tok (qstate q) (cur ++ [c]) toks ss n).
Proof. intros cur toks ss n q c S. cbn in S. destruct S as [S|[S|[]]]; subst; reflexivity. Qed.

Lemma run_raw : forall q text r, is_quote q -> raw q text r -> forall cur toks ss n,
  tok_run (Tok (qstate q) cur toks ss n) r
  = Ok (Tok (qstate q) (cur ++ text) toks ss (n + newlines r)).
Proof.
  intros q text r Q H. induction H; intros cur toks ss n.
  - rewrite app_nil_r, Z.add_0_r. reflexivity.
  - rewrite tok_run_cons, step_raw by auto. cbn [rbind]. rewrite bump_line_eq, IHraw.
    rewrite <- app_assoc. cbn [app newlines]. do 2 f_equal. ring.
  - rewrite tok_run_cons, step_backslash by auto. cbn [rbind]. rewrite bump_line_eq.
    rewrite tok_run_cons, step_escaped by auto. cbn [rbind]. rewrite bump_line_eq, IHraw.
    rewrite <- app_assoc. cbn [app newlines]. do 2 f_equal.
    change (Ascii.eqb "\" newline) with false. ring.
Qed.

Lemma flush_quoted_tokens : forall q text r toks,
  flush (quoted q) text toks = toks ++ piece_tokens (PQuote q text r).
Proof. intros. destruct text; cbn; rewrite ?app_nil_r; reflexivity. Qed.

Definition starts_word (ps : list piece) : Prop := exists w t, ps = PWord w :: t.

Lemma separated_tl : forall a ps, separated (a :: ps) -> separated ps.
Proof. intros a [|b ps]; cbn [separated]; tauto. Qed.

Lemma run_pieces : forall ps cur toks ss n, pieces_ok ps ->
  (cur = [] \/ ~ starts_word ps) ->
  exists cur' toks',
    tok_run (Tok TToken cur toks ss n) (pieces_text ps)
      = Ok (Tok TToken cur' toks' ss (n + newlines (pieces_text ps))) /\
    flush id cur' toks' = flush id cur toks ++ pieces_tokens ps /\
    (ps <> [] -> ~ ends_in_word ps -> cur' = []).
Proof.
  induction ps as [|p ps IH]; intros cur toks ss n [F S] C.
  - exists cur, toks. cbn [pieces_text pieces_tokens flat_map tok_run newlines].
    rewrite Z.add_0_r, app_nil_r. repeat split; auto. congruence.
  - inversion F as [|? ? Hp Hps]; subst.
    assert (OK : pieces_ok ps) by (split; [auto|eapply separated_tl; eauto]).
    assert (EW : forall cur' toks',
       (ps = [] -> ~ ends_in_word (p :: ps) -> cur' = []) ->
       (ps <> [] -> ~ ends_in_word ps -> cur' = []) ->
       flush id cur' toks' = flush id cur' toks' /\
       (p :: ps <> [] -> ~ ends_in_word (p :: ps) -> cur' = [])).
    { intros cur' toks' H1 H2. split; auto. intros _ N.
      destruct ps as [|p2 ps]; auto. apply H2; [discriminate|].
      intros (qs & w & E). apply N. exists (p :: qs), w. cbn. congruence. }
    cbn [pieces_text flat_map]. fold (pieces_text ps).
    rewrite tok_run_app, newlines_app. cbn [pieces_tokens flat_map]. fold (pieces_tokens ps).
    destruct p as [c|w|c|q text r]; cbn [piece_text piece_ok piece_tokens] in *.
    + rewrite tok_run_cons, step_sep by auto. cbn [rbind]. rewrite bump_line_eq.
      cbn [tok_run rbind].
      destruct (IH [] (flush id cur toks) ss (n + newlines [c]) OK (or_introl eq_refl))
        as (cur' & toks' & E1 & E2 & E3).
      exists cur', toks'. rewrite E1. split; [do 2 f_equal; ring|]. split; [exact E2|].
      apply (EW cur' toks'); auto. intros -> _. cbn in E1. congruence.
    + destruct Hp as [NE W]. rewrite run_word by auto. cbn [rbind].
      assert (cur = []) as ->.
      { destruct C; auto. exfalso. apply H. exists w, ps. reflexivity. }
      cbn [app].
      destruct (IH w toks ss n OK) as (cur' & toks' & E1 & E2 & E3).
      { right. intros (w2 & t & ->). destruct S as [S _]. discriminate. }
      exists cur', toks'. rewrite E1, (word_newlines w) by auto.
      split; [do 2 f_equal; ring|]. split.
      * rewrite E2, flush_cons by auto. cbn. rewrite <- app_assoc. reflexivity.
      * apply (EW cur' toks'); auto. intros -> N. exfalso. apply N. exists [], w. reflexivity.
    + rewrite tok_run_cons, step_bracket by auto. cbn [rbind]. rewrite bump_line_eq.
      cbn [tok_run rbind].
      destruct (IH [] (flush id cur toks ++ [[c]]) ss (n + newlines [c]) OK (or_introl eq_refl))
        as (cur' & toks' & E1 & E2 & E3).
      exists cur', toks'. rewrite E1. split; [do 2 f_equal; ring|]. split.
      * rewrite E2. cbn. rewrite <- app_assoc. reflexivity.
      * apply (EW cur' toks'); auto. intros -> _. cbn in E1. congruence.
    + destruct Hp as [Q R].
      rewrite tok_run_cons, step_open by auto. cbn [rbind]. rewrite bump_line_eq.
      rewrite tok_run_app, (run_raw q text r) by auto. cbn [rbind app].
      rewrite tok_run_cons, step_close by auto. cbn [rbind]. rewrite bump_line_eq.
      cbn [tok_run rbind].
      rewrite (flush_quoted_tokens q text r).
      match goal with |- exists cur' toks', tok_run (Tok _ _ ?T ?S ?N) _ = _ /\ _ =>
        destruct (IH [] T S N OK (or_introl eq_refl)) as (cur' & toks' & E1 & E2 & E3) end.
      exists cur', toks'. rewrite E1. split.
      * do 2 f_equal. change (q :: r ++ [q]) with ([q] ++ r ++ [q]).
        rewrite !newlines_app. ring.
      * split.
        -- rewrite E2. cbn [flush]. rewrite <- app_assoc. reflexivity.
        -- apply (EW cur' toks'); auto. intros -> _. cbn in E1. congruence.
Qed.

Lemma make_statement_spec : forall toks n, make_statement toks n = line_statement toks n.
Proof.
  intros [|[|c f] t] n; auto. unfold make_statement, line_statement.
  cbn [starts_with list_ascii_of_string]. rewrite andb_true_r.
  rewrite (Ascii.eqb_sym "." c). reflexivity.
Qed.

Lemma run_comment : forall cm toks ss n, comment_text cm ->
  tok_run (Tok TComment [] toks ss n) cm = Ok (Tok TComment [] toks ss n).
Proof.
  induction cm; intros toks ss n F; auto. inversion F as [|? ? [N R] F']; subst.
  rewrite tok_run_cons. unfold tok_step. cbn [t_state].
  rewrite chr_in_false_intro.
  2:{ intros [I|[I|[]]]; subst; auto. }
  cbn [rbind]. rewrite bump_line_eq. cbn [newlines]. rewrite eqb_neq by auto.
  rewrite ?Z.add_0_r. auto.
Qed.

Lemma comment_newlines : forall cm, comment_text cm -> newlines cm = 0.
Proof.
  induction 1 as [|c cm [N R]]; cbn [newlines]; auto. rewrite eqb_neq by auto.
  rewrite IHForall. reflexivity.
Qed.

(** Reading the end of a line. *)
Lemma run_line_end : forall e cur toks ss n, line_end e ->
  tok_run (Tok TToken cur toks ss n) e
  = Ok (Tok TToken [] [] (ss ++ line_statement (flush id cur toks) n) (n + newlines e)).
Proof.
  intros e cur toks ss n H. rewrite <- make_statement_spec. destruct H.
  - reflexivity.
  - change (newlines [creturn]) with 0. rewrite Z.add_0_r. reflexivity.
  - rewrite tok_run_cons.
    change (tok_step (Tok TToken cur toks ss n) ";")
      with (Ok (Tok TComment [] [] (ss ++ make_statement (flush id cur toks) n) n)).
    cbn [rbind]. rewrite bump_line_eq. rewrite tok_run_app, run_comment by auto. cbn [rbind].
    rewrite tok_run_cons. unfold tok_step. cbn [t_state].
    rewrite chr_in_true_intro by (destruct H0; subst; [left|right; left]; reflexivity).
    cbn [rbind t_cur t_tokens t_stmts t_line]. rewrite bump_line_eq. cbn [tok_run].
    change (";"%char :: cm ++ [c]) with ([";"%char] ++ cm ++ [c]).
    rewrite !newlines_app, (comment_newlines cm) by auto.
    change (newlines [";"%char]) with 0. rewrite !Z.add_0_r, !Z.add_0_l. reflexivity.
Qed.

Lemma flush_empty : forall cur toks, flush id cur toks = [] -> cur = [] /\ toks = [].
Proof.
  intros [|c cur] toks H; cbn in H; auto. destruct toks; discriminate.
Qed.

Lemma label_tokens : forall w, flush id w [] = match w with [] => [] | _ => [w] end.
Proof. intros []; reflexivity. Qed.

Lemma run_colon : forall w ss n,
  tok_run (Tok TToken w [] ss n) [":"%char]
  = Ok (Tok TToken [] [] (ss ++ [Stmt KLabel (match w with [] => [] | _ => [w] end) n]) n).
Proof.
  intros. rewrite <- label_tokens. reflexivity.
Qed.

(** Pieces without tokens contain no newline. *)
Lemma blank_newlines : forall ps, pieces_ok ps -> pieces_tokens ps = [] ->
  newlines (pieces_text ps) = 0.
Proof.
  intros ps [F _]. induction F as [|p ps Hp F IH]; auto.
  unfold pieces_tokens, pieces_text. cbn [flat_map].
  fold (pieces_text ps) (pieces_tokens ps). intros E. apply app_eq_nil in E.
  destruct E as [Ep E]. rewrite newlines_app, IH by auto.
  destruct p as [c|w'|c|q [|c text] r]; try discriminate; cbn [piece_text piece_ok] in *.
  - rewrite sep_newlines by auto. reflexivity.
  - destruct Hp as [Q R]. inversion R; subst. cbn [app].
    change [q; q] with ([q] ++ [q]). rewrite newlines_app, quote_newlines by auto. reflexivity.
Qed.

Lemma run_lines : forall n ss text m, lines n ss text m -> forall ss0,
  tok_run (Tok TToken [] [] ss0 n) text = Ok (Tok TToken [] [] (ss0 ++ ss) m).
Proof.
  induction 1; intros ss0.
  - rewrite app_nil_r. reflexivity.
  - rewrite tok_run_app.
    destruct (run_pieces ps [] [] ss0 n H (or_introl eq_refl)) as (cur & toks & E1 & E2 & _).
    rewrite E1. cbn [rbind]. rewrite tok_run_app, run_line_end by auto. cbn [rbind].
    rewrite E2, IHlines. cbn [flush app]. rewrite <- app_assoc. reflexivity.
  - rewrite tok_run_app.
    destruct (run_pieces ps [] [] ss0 n H (or_introl eq_refl)) as (cur & toks & E1 & E2 & _).
    rewrite E1. cbn [rbind]. rewrite H0 in E2. cbn [flush app] in E2.
    apply flush_empty in E2. destruct E2 as [-> ->].
    rewrite (blank_newlines ps) by auto.
    rewrite Z.add_0_r, tok_run_app, run_word by auto. cbn [rbind app].
    change (":"%char :: rest) with ([":"%char] ++ rest).
    rewrite tok_run_app, run_colon. cbn [rbind]. rewrite IHlines.
    rewrite <- app_assoc. reflexivity.
Qed.

Lemma run_file_end : forall e cur toks ss n, file_end e ->
  exists st, tok_run (Tok TToken cur toks ss n) (e ++ [newline])
  = Ok (Tok TToken [] [] (ss ++ line_statement (flush id cur toks) n) (st + 1)) /\ st = n.
Proof.
  intros e cur toks ss n H. exists n. split; auto. destruct H.
  - cbn [app]. rewrite run_line_end by constructor. reflexivity.
  - cbn [app]. rewrite run_line_end by (constructor; auto).
    change (";"%char :: cm ++ [newline]) with ([";"%char] ++ cm ++ [newline]).
    rewrite !newlines_app, (comment_newlines cm) by auto. reflexivity.
Qed.

(** Reading a whole source text ends between statements. *)
Lemma run_source : forall n ss text, source n ss text -> forall ss0,
  tok_run (Tok TToken [] [] ss0 n) (text ++ [newline])
  = Ok (Tok TToken [] [] (ss0 ++ ss) (n + newlines text + 1)).
Proof.
  intros n ss text H ss0. destruct H.
  rewrite <- !app_assoc, tok_run_app, (run_lines n ss pre m) by auto. cbn [rbind].
  rewrite tok_run_app.
  destruct (run_pieces ps [] [] (ss0 ++ ss) m H0 (or_introl eq_refl)) as (cur & toks & E1 & E2 & _).
  rewrite E1. cbn [rbind].
  destruct (run_file_end e cur toks (ss0 ++ ss) (m + newlines (pieces_text ps)) H1)
    as (st & E & ->).
  rewrite E, E2. cbn [flush app]. rewrite <- !app_assoc. do 2 f_equal.
  rewrite !newlines_app.
  assert (newlines e = 0) as ->.
  { destruct H1; auto. cbn [newlines]. rewrite (comment_newlines cm) by auto. reflexivity. }
  enough (m = n + newlines pre) by lia.
  clear - H. induction H; cbn [newlines].
  - ring.
  - rewrite !newlines_app. lia.
  - rewrite !newlines_app. cbn [newlines]. rewrite (word_newlines w) by auto.
    change (Ascii.eqb ":" newline) with false.
    rewrite (blank_newlines ps) by auto. lia.
Qed.

Lemma source_tokenize : forall ss text, source 1 ss text -> tokenize text = Ok ss.
Proof.
  intros ss text H. unfold tokenize, tok_init. change nl with newline.
  rewrite (run_source 1 ss text) by auto. reflexivity.
Qed.

(** ** Completeness: every text that is read is a source text *)

Lemma lines_app : forall n s1 t1 m, lines n s1 t1 m -> forall s2 t2 k,
  lines m s2 t2 k -> lines n (s1 ++ s2) (t1 ++ t2) k.
Proof.
  induction 1; intros s2 t2 k HH.
  - auto.
  - rewrite <- !app_assoc. apply lines_line; auto.
  - cbn [app]. rewrite <- !app_assoc. cbn [app]. apply lines_label; auto.
Qed.

Lemma lines_snoc_line : forall n ss text m ps e, lines n ss text m -> pieces_ok ps -> line_end e ->
  lines n (ss ++ line_statement (pieces_tokens ps) (m + newlines (pieces_text ps)))
          (text ++ pieces_text ps ++ e) (m + newlines (pieces_text ps) + newlines e).
Proof.
  intros. eapply lines_app; eauto.
  rewrite <- (app_nil_r (line_statement _ _)), <- (app_nil_r e) at 1.
  apply lines_line; auto. constructor.
Qed.

Lemma pieces_snoc : forall ps p, pieces_ok ps -> piece_ok p ->
  (is_word p = false \/ ~ ends_in_word ps) -> pieces_ok (ps ++ [p]).
Proof.
  intros ps p [F S] P C. split.
  - apply Forall_app. auto.
  - induction ps as [|a ps IH]; cbn [app]; [exact I|].
    destruct ps as [|b ps].
    + cbn [app separated]. split; [|exact I].
      destruct C as [C|C]; [rewrite C; apply andb_false_r|].
      destruct a; cbn [is_word]; auto. exfalso. apply C. exists [], w. reflexivity.
    + cbn [app separated] in *. destruct S as [S1 S2]. split; auto.
      inversion F; subst. apply IH; auto. destruct C as [C|C]; [left; auto|right].
      intros (qs & w & E). apply C. exists (a :: qs), w. cbn. rewrite E. reflexivity.
Qed.

Lemma not_ends_snoc : forall ps p, is_word p = false -> ~ ends_in_word (ps ++ [p]).
Proof.
  intros ps p H (qs & w & E). apply app_inj_tail in E. destruct E as [_ ->]. discriminate.
Qed.

(** Turn the pending word into a piece. *)
Definition pend (ps : list piece) (cur : str) : list piece :=
  match cur with [] => ps | _ => ps ++ [PWord cur] end.

Lemma pend_ok : forall ps cur, pieces_ok ps -> ~ ends_in_word ps -> Forall is_word_char cur ->
  pieces_ok (pend ps cur).
Proof.
  intros ps [|c cur] P N W; auto. cbn [pend]. apply pieces_snoc; auto. split; auto. discriminate.
Qed.
Lemma pend_text : forall ps cur, pieces_text (pend ps cur) = pieces_text ps ++ cur.
Proof.
  intros ps [|c cur]; cbn [pend]; [rewrite app_nil_r; auto|].
  unfold pieces_text. rewrite flat_map_app. cbn. rewrite app_nil_r. reflexivity.
Qed.
Lemma pend_tokens : forall ps cur, pieces_tokens (pend ps cur) = flush id cur (pieces_tokens ps).
Proof.
  intros ps [|c cur]; cbn [pend]; auto.
  unfold pieces_tokens. rewrite flat_map_app. reflexivity.
Qed.
Lemma snoc_text : forall ps p, pieces_text (ps ++ [p]) = pieces_text ps ++ piece_text p.
Proof. intros. unfold pieces_text. rewrite flat_map_app. cbn. rewrite app_nil_r. reflexivity. Qed.
Lemma snoc_tokens : forall ps p, pieces_tokens (ps ++ [p]) = pieces_tokens ps ++ piece_tokens p.
Proof. intros. unfold pieces_tokens. rewrite flat_map_app. cbn. rewrite app_nil_r. reflexivity. Qed.

(** What has been read when the tokenizer is in a given state. *)
Inductive reads : str -> tok -> Prop :=
| reads_token ss pre m ps cur :
    lines 1 ss pre m -> pieces_ok ps -> ~ ends_in_word ps -> Forall is_word_char cur ->
    reads (pre ++ pieces_text ps ++ cur)
          (Tok TToken cur (pieces_tokens ps) ss (m + newlines (pieces_text ps)))
| reads_quoted ss pre m ps q text r :
    lines 1 ss pre m -> pieces_ok ps -> is_quote q -> raw q text r ->
    reads (pre ++ pieces_text ps ++ q :: r)
          (Tok (qstate q) text (pieces_tokens ps) ss (m + newlines (pieces_text ps) + newlines r))
| reads_escape ss pre m ps q text r :
    lines 1 ss pre m -> pieces_ok ps -> is_quote q -> raw q text r ->
    reads (pre ++ pieces_text ps ++ q :: r ++ ["\"%char])
          (Tok (estate q) text (pieces_tokens ps) ss (m + newlines (pieces_text ps) + newlines r))
| reads_comment ss pre m ps cm :
    lines 1 ss pre m -> pieces_ok ps -> comment_text cm ->
    reads (pre ++ pieces_text ps ++ ";"%char :: cm)
          (Tok TComment [] []
             (ss ++ line_statement (pieces_tokens ps) (m + newlines (pieces_text ps)))
             (m + newlines (pieces_text ps))).

Lemma reads_init : reads [] tok_init.
Proof.
  apply (reads_token [] [] 1 [] []).
  - constructor.
  - split; constructor.
  - intros (qs & w & E). destruct qs; discriminate.
  - constructor.
Qed.

(** Reading complete lines. *)
Lemma reads_lines : forall n ss text m, n = 1 -> lines n ss text m ->
  reads text (Tok TToken [] [] ss m).
Proof.
  intros n ss text m -> L. pose proof (reads_token ss text m [] [] L) as H.
  cbn [pieces_text flat_map app pieces_tokens newlines] in H.
  rewrite app_nil_r, Z.add_0_r in H. apply H.
  - split; constructor.
  - intros (qs & w & E). destruct qs; discriminate.
  - constructor.
Qed.

Lemma raw_snoc : forall q t r, raw q t r -> forall t' r', raw q t' r' ->
  raw q (t ++ t') (r ++ r').
Proof. induction 1; intros; cbn [app]; auto; constructor; auto. Qed.

Lemma char_cases : forall c,
  is_sep c \/ is_bracket c \/ is_quote c \/ c = newline \/ c = creturn \/ c = ";"%char \/
  c = ":"%char \/ is_word_char c.
Proof.
  intros c. unfold is_word_char.
  assert (D : forall l, In c l \/ ~ In c l) by (intros; destruct (in_dec ascii_dec c l); auto).
  destruct (D [" "%char; ascii_of_nat 9; ","%char]) as [H1|H1]; [left; exact H1|].
  destruct (D ["("%char; ")"%char; "["%char; "]"%char; "{"%char; "}"%char]) as [H2|H2];
    [right; left; exact H2|].
  destruct (D [ascii_of_nat 34; ascii_of_nat 39]) as [H3|H3]; [do 2 right; left; exact H3|].
  destruct (ascii_dec c newline) as [E1|E1]; [tauto|].
  destruct (ascii_dec c creturn) as [E2|E2]; [tauto|].
  destruct (ascii_dec c ";") as [E3|E3]; [tauto|].
  destruct (ascii_dec c ":") as [E4|E4]; [tauto|].
  do 7 right. unfold is_sep, is_bracket, is_quote. tauto.
Qed.

Lemma qstate_not_token : forall q, qstate q <> TToken /\ estate q <> TToken.
Proof. intros. unfold qstate, estate. destruct (Ascii.eqb q dquote); split; discriminate. Qed.

Lemma reads_step : forall text t c, reads text t ->
  match tok_step t c with
  | Ok t' => reads (text ++ [c]) (bump_line t' c)
  | Err e => e = PExc TokenizerInvalidLabel /\ c = ":"%char /\
             exists ss pre m ps w,
               lines 1 ss pre m /\ pieces_ok ps /\ ~ ends_in_word ps /\ pieces_tokens ps <> [] /\
               Forall is_word_char w /\ text = pre ++ pieces_text ps ++ w
  end.
Proof.
  intros text t c R. destruct R.
  - (* token state *)
    destruct (char_cases c) as [C|[C|[C|[C|[C|[C|[C|C]]]]]]].
    + rewrite step_sep by auto. rewrite bump_line_eq, sep_newlines by auto.
      rewrite <- pend_tokens.
      assert (P : pieces_ok (pend ps cur ++ [PSep c])).
      { apply pieces_snoc; [apply pend_ok; auto|exact C|left; reflexivity]. }
      pose proof (reads_token ss pre m _ [] H P (not_ends_snoc _ (PSep c) eq_refl)
                    (Forall_nil _)) as X.
      rewrite snoc_text, snoc_tokens, pend_text, newlines_app in X.
      cbn [piece_text piece_tokens] in X. rewrite (sep_newlines c) in X by auto.
      rewrite newlines_app, (word_newlines cur) in X by auto.
      rewrite !app_nil_r, <- !app_assoc, !Z.add_0_r in X.
      rewrite <- !app_assoc, !Z.add_0_r. exact X.
    + rewrite step_bracket by auto. rewrite bump_line_eq, bracket_newlines by auto.
      rewrite <- pend_tokens.
      assert (P : pieces_ok (pend ps cur ++ [PBracket c])).
      { apply pieces_snoc; [apply pend_ok; auto|exact C|left; reflexivity]. }
      pose proof (reads_token ss pre m _ [] H P (not_ends_snoc _ (PBracket c) eq_refl)
                    (Forall_nil _)) as X.
      rewrite snoc_text, snoc_tokens, pend_text, newlines_app in X.
      cbn [piece_text piece_tokens] in X. rewrite (bracket_newlines c) in X by auto.
      rewrite newlines_app, (word_newlines cur) in X by auto.
      rewrite !app_nil_r, <- !app_assoc, !Z.add_0_r in X.
      rewrite <- !app_assoc, !Z.add_0_r. exact X.
    + rewrite step_open by auto. rewrite bump_line_eq, quote_newlines by auto.
      rewrite <- pend_tokens.
      pose proof (reads_quoted ss pre m (pend ps cur) c [] [] H (pend_ok ps cur H0 H1 H2) C
                    (raw_nil c)) as X.
      rewrite pend_text, newlines_app, (word_newlines cur) in X by auto.
      cbn [newlines] in X. rewrite <- !app_assoc, !Z.add_0_r in X.
      rewrite <- !app_assoc, !Z.add_0_r. exact X.
    + subst c.
      change (tok_step _ newline) with
        (Ok (Tok TToken [] [] (ss ++ make_statement (flush id cur (pieces_tokens ps))
           (m + newlines (pieces_text ps))) (m + newlines (pieces_text ps)))).
      cbv iota beta. rewrite bump_line_eq, make_statement_spec, <- pend_tokens.
      pose proof (lines_snoc_line 1 ss pre m (pend ps cur) [newline] H
                    (pend_ok ps cur H0 H1 H2) end_nl) as X.
      apply reads_lines in X; auto.
      rewrite pend_text, newlines_app, (word_newlines cur), Z.add_0_r in X by auto.
      rewrite <- !app_assoc in *. exact X.
    + subst c.
      change (tok_step _ creturn) with
        (Ok (Tok TToken [] [] (ss ++ make_statement (flush id cur (pieces_tokens ps))
           (m + newlines (pieces_text ps))) (m + newlines (pieces_text ps)))).
      cbv iota beta. rewrite bump_line_eq, make_statement_spec, <- pend_tokens.
      pose proof (lines_snoc_line 1 ss pre m (pend ps cur) [creturn] H
                    (pend_ok ps cur H0 H1 H2) end_cr) as X.
      apply reads_lines in X; auto.
      rewrite pend_text, newlines_app, (word_newlines cur), Z.add_0_r in X by auto.
      rewrite <- !app_assoc in *. exact X.
    + subst c.
      change (tok_step _ ";") with
        (Ok (Tok TComment [] [] (ss ++ make_statement (flush id cur (pieces_tokens ps))
           (m + newlines (pieces_text ps))) (m + newlines (pieces_text ps)))).
      cbv iota beta. rewrite bump_line_eq, make_statement_spec, <- pend_tokens.
      change (newlines [";"%char]) with 0.
      pose proof (reads_comment ss pre m (pend ps cur) [] H
                    (pend_ok ps cur H0 H1 H2) (Forall_nil _)) as X.
      rewrite pend_text, newlines_app, (word_newlines cur), Z.add_0_r in X by auto.
      rewrite <- !app_assoc, Z.add_0_r in *. exact X.
    + subst c. unfold tok_step. cbn [t_state]. unfold state_token.
      change (chr_in ":" [" "%char; nl; cr; tab; ","%char; ";"%char]) with false.
      change (chr_in ":" ["("%char; ")"%char; "["%char; "]"%char; "{"%char; "}"%char]) with false.
      change (Ascii.eqb ":" ":") with true. cbv iota. unfold token_colon.
      cbn [t_tokens t_stmts t_cur t_line].
      destruct (pieces_tokens ps) eqn:E.
      * rewrite bump_line_eq, label_tokens. change (newlines [":"%char]) with 0.
        rewrite Z.add_0_r.
        pose proof (lines_app 1 ss pre m H
          [Stmt KLabel (match cur with [] => [] | _ => [cur] end) m]
          (pieces_text ps ++ cur ++ [":"%char]) m) as X.
        assert (L : lines m [Stmt KLabel (match cur with [] => [] | _ => [cur] end) m]
                      (pieces_text ps ++ cur ++ [":"%char]) m)
          by (apply lines_label; auto; constructor).
        pose proof (blank_newlines ps H0 E) as N0.
        rewrite N0, Z.add_0_r. specialize (X L). apply reads_lines in X; auto.
        rewrite <- !app_assoc. exact X.
      * split; auto. split; auto. exists ss, pre, m, ps, cur.
        rewrite E. repeat split; auto; try apply H0. discriminate.
    + rewrite step_word by auto. rewrite bump_line_eq.
      rewrite (word_newlines [c]), Z.add_0_r by (constructor; auto).
      rewrite <- !app_assoc. apply reads_token; auto. apply Forall_app. auto.
  - (* inside quotes *)
    destruct (ascii_dec c "\") as [->|NB].
    + rewrite step_backslash by auto. rewrite bump_line_eq.
      change (newlines ["\"%char]) with 0. rewrite Z.add_0_r.
      rewrite <- !app_assoc. cbn [app]. apply reads_escape; auto.
    + destruct (ascii_dec c q) as [->|NQ].
      * rewrite step_close by auto. rewrite bump_line_eq, quote_newlines by auto.
        rewrite (flush_quoted_tokens q text r), <- snoc_tokens.
        pose proof (reads_token ss pre m (ps ++ [PQuote q text r]) [] H) as X.
        rewrite snoc_text, newlines_app in X. cbn [piece_text] in X.
        change (q :: r ++ [q]) with ([q] ++ r ++ [q]) in X.
        rewrite !newlines_app, quote_newlines in X by auto.
        rewrite !app_nil_r, !Z.add_0_r, Z.add_0_l, Z.add_assoc in X.
        rewrite <- !app_assoc, !Z.add_0_r. cbn [app] in *. apply X.
        -- apply pieces_snoc; auto. split; auto.
        -- apply not_ends_snoc. reflexivity.
        -- constructor.
      * rewrite step_raw by auto. rewrite bump_line_eq.
        rewrite <- !app_assoc. cbn [app]. rewrite <- Z.add_assoc, <- newlines_app.
        apply reads_quoted; auto. apply raw_snoc; auto.
        apply raw_plain; auto. constructor.
  - (* after a backslash *)
    rewrite step_escaped by auto. rewrite bump_line_eq.
    rewrite <- !app_assoc. cbn [app]. rewrite <- app_assoc. cbn [app].
    replace (m + newlines (pieces_text ps) + newlines r + newlines [c])
      with (m + newlines (pieces_text ps) + newlines (r ++ ["\"%char; c])).
    2:{ rewrite newlines_app. cbn [newlines]. change (Ascii.eqb "\" newline) with false. ring. }
    apply reads_quoted; auto. apply raw_snoc; auto. apply raw_escape. constructor.
  - (* comment *)
    unfold tok_step. cbn [t_state].
    destruct (chr_in c [nl; cr]) eqn:E.
    + cbn [t_cur t_tokens t_stmts t_line]. rewrite bump_line_eq.
      apply chr_in_In in E.
      assert (c = newline \/ c = creturn) by (destruct E as [E|[E|[]]]; subst; auto).
      pose proof (lines_snoc_line 1 ss pre m ps (";"%char :: cm ++ [c]) H H0
                    (end_comment cm c H1 H2)) as X.
      apply reads_lines in X; auto.
      assert (N : newlines (";"%char :: cm ++ [c]) = newlines [c]).
      { change (";"%char :: cm ++ [c]) with ([";"%char] ++ cm ++ [c]).
        rewrite !newlines_app, (comment_newlines cm) by auto. reflexivity. }
      rewrite N in X. rewrite <- !app_assoc. exact X.
    + apply chr_in_not in E. rewrite bump_line_eq.
      assert (c <> newline /\ c <> creturn).
      { split; intro; subst; apply E; [left|right; left]; reflexivity. }
      cbn [newlines]. rewrite eqb_neq by tauto. rewrite !Z.add_0_r.
      rewrite <- !app_assoc. cbn [app]. apply reads_comment; auto.
      apply Forall_app. split; auto.
Qed.

Lemma reads_run : forall s text t, reads text t ->
  match tok_run t s with
  | Ok t' => reads (text ++ s) t'
  | Err e => e = PExc TokenizerInvalidLabel /\
             exists ss pre m ps w rest,
               lines 1 ss pre m /\ pieces_ok ps /\ ~ ends_in_word ps /\ pieces_tokens ps <> [] /\
               Forall is_word_char w /\ text ++ s = pre ++ pieces_text ps ++ w ++ ":"%char :: rest
  end.
Proof.
  induction s as [|c s IH]; intros text t R; cbn [tok_run].
  - rewrite app_nil_r. auto.
  - pose proof (reads_step text t c R) as S. destruct (tok_step t c) as [t'|e]; cbn [rbind].
    + specialize (IH _ _ S). rewrite <- app_assoc in IH. exact IH.
    + destruct S as (-> & -> & ss & pre & m & ps & w & H1 & H2 & H3 & H4 & H5 & ->).
      split; auto. exists ss, pre, m, ps, w, s. repeat split; auto; try apply H2.
      rewrite <- !app_assoc. reflexivity.
Qed.

Lemma tokenize_run : forall text,
  match tok_run tok_init text with
  | Ok t => (t_state t = TToken \/ t_state t = TComment) /\ tokenize text = Ok (t_stmts t ++
              line_statement (flush id (t_cur t) (t_tokens t)) (t_line t)) \/
            (t_state t <> TToken /\ t_state t <> TComment) /\ tokenize text = Ok (t_stmts t)
  | Err e => tokenize text = Err e
  end.
Proof.
  intros text. pose proof (reads_run text [] tok_init reads_init) as R.
  unfold tokenize. rewrite tok_run_app.
  destruct (tok_run tok_init text) as [t|e]; cbn [rbind]; auto. cbn [app] in R.
  destruct R.
  - left. split; [left; reflexivity|]. cbn [t_stmts t_cur t_tokens t_line].
    change [nl] with [newline]. rewrite run_line_end by constructor. reflexivity.
  - right. split.
    { cbn [t_state]. unfold qstate. destruct (Ascii.eqb q dquote); split; discriminate. }
    change [nl] with [newline]. cbn [tok_run].
    rewrite step_raw; auto; try discriminate.
    intro; subst. destruct H1 as [E|[E|[]]]; discriminate.
  - right. split.
    { cbn [t_state]. unfold estate. destruct (Ascii.eqb q dquote); split; discriminate. }
    change [nl] with [newline]. cbn [tok_run]. rewrite step_escaped by auto. reflexivity.
  - left. split; [right; reflexivity|]. cbn. rewrite app_nil_r. reflexivity.
Qed.

(** Every text is a source text, or has a misplaced colon, or an unterminated
    quoted literal. *)
Lemma tokenize_cases : forall text,
  (exists ss, source 1 ss text /\ tokenize text = Ok ss) \/
  (misplaced_colon text /\ tokenize text = Err (PExc TokenizerInvalidLabel)) \/
  (unterminated text /\ exists ss, tokenize text = Ok ss).
Proof.
  intros text. pose proof (reads_run text [] tok_init reads_init) as R.
  pose proof (tokenize_run text) as T.
  destruct (tok_run tok_init text) as [t|e].
  - cbn [app] in R. destruct R.
    + left. destruct T as [[_ T]|[[N _] _]]; [|cbn in N; congruence].
      exists (ss ++ line_statement (pieces_tokens (pend ps cur)) (m + newlines (pieces_text (pend ps cur)))).
      split.
      * pose proof (source_intro 1 ss pre m (pend ps cur) [] H (pend_ok ps cur H0 H1 H2)
                      file_end_plain) as X.
        rewrite pend_text, app_nil_r in X. rewrite pend_text. exact X.
      * cbn [t_stmts t_cur t_tokens t_line] in T. rewrite T, pend_tokens, pend_text, newlines_app.
        rewrite (word_newlines cur) by auto. rewrite Z.add_0_r. reflexivity.
    + right. right. split.
      * exists ss, pre, m, ps, q, r, text, []. rewrite app_nil_r. repeat split; auto; apply H0.
      * destruct T as [[_ T]|[_ T]]; eauto.
    + right. right. split.
      * exists ss, pre, m, ps, q, r, text, ["\"%char]. repeat split; auto; apply H0.
      * destruct T as [[_ T]|[_ T]]; eauto.
    + left. destruct T as [[_ T]|[[_ N] _]]; [|cbn in N; congruence].
      eexists. split; [|exact T]. cbn [t_stmts t_cur t_tokens t_line flush line_statement].
      rewrite app_nil_r. apply source_intro; auto. constructor; auto.
  - right. left. destruct R as [-> R]. split; auto.
Qed.

Lemma misplaced_colon_fails : forall text, misplaced_colon text ->
  tokenize text = Err (PExc TokenizerInvalidLabel).
Proof.
  intros text (ss & pre & m & ps & w & rest & H1 & H2 & H3 & H4 & H5 & ->).
  unfold tokenize. rewrite <- !app_assoc, tok_run_app. unfold tok_init.
  rewrite (run_lines 1 ss pre m) by auto. cbn [rbind app]. rewrite tok_run_app.
  destruct (run_pieces ps [] [] ss m H2 (or_introl eq_refl)) as (cur & toks & E1 & E2 & E3).
  rewrite E1. cbn [rbind].
  assert (cur = []) as ->.
  { apply E3; auto. intros ->. apply H4. reflexivity. }
  cbn [flush app] in E2. subst toks.
  rewrite tok_run_app, run_word by auto. cbn [rbind app]. cbn [tok_run].
  unfold tok_step. cbn [t_state]. unfold state_token.
  change (chr_in ":" [" "%char; nl; cr; tab; ","%char; ";"%char]) with false.
  change (chr_in ":" ["("%char; ")"%char; "["%char; "]"%char; "{"%char; "}"%char]) with false.
  change (Ascii.eqb ":" ":") with true. cbv iota. unfold token_colon. cbn [t_tokens].
  destruct (pieces_tokens ps); [congruence|]. reflexivity.
Qed.

(** ** Composition *)

Definition shift_tok (k : Z) (t : tok) : tok :=
  Tok (t_state t) (t_cur t) (t_tokens t) (shift_lines k (t_stmts t)) (t_line t + k).

Lemma shift_app : forall k a b, shift_lines k (a ++ b) = shift_lines k a ++ shift_lines k b.
Proof. intros. apply map_app. Qed.

Lemma make_statement_shift : forall toks n k,
  make_statement toks (n + k) = shift_lines k (make_statement toks n).
Proof. intros [|f t] n k; reflexivity. Qed.

Lemma prefix_step : forall ss0 k t c,
  tok_step (Tok (t_state t) (t_cur t) (t_tokens t) (ss0 ++ shift_lines k (t_stmts t)) (t_line t + k)) c
  = let? t' := tok_step t c in
    Ok (Tok (t_state t') (t_cur t') (t_tokens t') (ss0 ++ shift_lines k (t_stmts t')) (t_line t' + k)).
Proof.
  intros ss0 k [st cur toks ss n] c. unfold tok_step. cbn [t_state t_cur t_tokens t_stmts t_line].
  destruct st; cbn [rbind t_state t_cur t_tokens t_stmts t_line].
  - unfold state_token, token_spaces, token_brackets, token_colon.
    cbn [t_state t_cur t_tokens t_stmts t_line].
    destruct (chr_in c [" "%char; nl; cr; tab; ","%char; ";"%char]).
    { destruct (chr_in c [nl; cr; ";"%char]); cbn [rbind t_state t_cur t_tokens t_stmts t_line]; auto.
      rewrite make_statement_shift, shift_app, app_assoc. reflexivity. }
    destruct (chr_in c _); cbn [rbind t_state t_cur t_tokens t_stmts t_line]; auto.
    destruct (Ascii.eqb c ":").
    { destruct toks; cbn [rbind t_state t_cur t_tokens t_stmts t_line]; auto.
      rewrite shift_app, app_assoc. reflexivity. }
    destruct (Ascii.eqb c dquote); cbn [rbind t_state t_cur t_tokens t_stmts t_line]; auto.
    destruct (Ascii.eqb c squote); cbn [rbind t_state t_cur t_tokens t_stmts t_line]; auto.
  - unfold state_quoted. cbn [t_state t_cur t_tokens t_stmts t_line].
    destruct (Ascii.eqb c backslash); auto. destruct (Ascii.eqb c dquote); auto.
  - reflexivity.
  - unfold state_quoted. cbn [t_state t_cur t_tokens t_stmts t_line].
    destruct (Ascii.eqb c backslash); auto. destruct (Ascii.eqb c squote); auto.
  - reflexivity.
  - destruct (chr_in c [nl; cr]); reflexivity.
Qed.

Lemma prefix_run : forall ss0 k s t,
  tok_run (Tok (t_state t) (t_cur t) (t_tokens t) (ss0 ++ shift_lines k (t_stmts t)) (t_line t + k)) s
  = let? t' := tok_run t s in
    Ok (Tok (t_state t') (t_cur t') (t_tokens t') (ss0 ++ shift_lines k (t_stmts t')) (t_line t' + k)).
Proof.
  induction s as [|c s IH]; intros t; cbn [tok_run]; auto.
  rewrite prefix_step. destruct (tok_step t c) as [t'|e]; cbn [rbind]; auto.
  rewrite bump_line_eq. destruct t' as [st cur toks ss n].
  rewrite bump_line_eq. cbn [t_state t_cur t_tokens t_stmts t_line].
  replace (n + k + newlines [c]) with (n + newlines [c] + k) by ring.
  apply (IH (Tok st cur toks ss (n + newlines [c]))).
Qed.

Lemma tokenize_app : forall a b ssa, source 1 ssa a ->
  tokenize (a ++ newline :: b) =
  let? ssb := tokenize b in Ok (ssa ++ shift_lines (newlines a + 1) ssb).
Proof.
  intros a b ssa H. unfold tokenize at 1.
  change (a ++ newline :: b) with (a ++ [newline] ++ b). rewrite app_assoc, <- app_assoc.
  rewrite tok_run_app. unfold tok_init. rewrite (run_source 1 ssa a) by auto. cbn [rbind app].
  pose proof (prefix_run ssa (newlines a + 1) (b ++ [nl]) tok_init) as P.
  cbn [tok_init t_state t_cur t_tokens t_stmts t_line shift_lines map] in P.
  rewrite app_nil_r in P. replace (1 + newlines a + 1) with (1 + (newlines a + 1)) by ring.
  rewrite P. clear P. unfold tokenize, tok_init.
  match goal with |- context [tok_run ?t (b ++ [nl])] =>
    destruct (tok_run t (b ++ [nl])); reflexivity end.
Qed.

(** The reading is deterministic: a text is a source text of one statement list. *)
Lemma source_unique : forall s1 s2 text, source 1 s1 text -> source 1 s2 text -> s1 = s2.
Proof.
  intros. apply source_tokenize in H, H0. congruence.
Qed.

(** ** Layout *)

Definition sim (t1 t2 : tok) : Prop :=
  t_state t1 = t_state t2 /\ t_cur t1 = t_cur t2 /\ t_tokens t1 = t_tokens t2 /\
  map content (t_stmts t1) = map content (t_stmts t2).

Definition simres (r1 r2 : res tok) : Prop :=
  match r1, r2 with Ok t1, Ok t2 => sim t1 t2 | Err e1, Err e2 => e1 = e2 | _, _ => False end.

Lemma make_statement_content : forall toks n m,
  map content (make_statement toks n) = map content (make_statement toks m).
Proof. intros [|f t] n m; reflexivity. Qed.

Lemma sim_step : forall t1 t2 c, sim t1 t2 -> simres (tok_step t1 c) (tok_step t2 c).
Proof.
  intros [st cur toks s1 n1] [st2 cur2 toks2 s2 n2] c (E1 & E2 & E3 & E4).
  cbn [t_state t_cur t_tokens t_stmts] in *. subst st2 cur2 toks2.
  unfold tok_step. cbn [t_state t_cur t_tokens t_stmts t_line].
  destruct st; cbn [simres].
  - unfold state_token, token_spaces, token_brackets, token_colon.
    cbn [t_state t_cur t_tokens t_stmts t_line].
    destruct (chr_in c [" "%char; nl; cr; tab; ","%char; ";"%char]).
    { destruct (chr_in c [nl; cr; ";"%char]); cbn [simres]; repeat split; auto.
      cbn [t_stmts]. rewrite !map_app, E4. f_equal. apply make_statement_content. }
    destruct (chr_in c _); [repeat split; auto|].
    destruct (Ascii.eqb c ":").
    { destruct toks; cbn [simres]; repeat split; auto.
      cbn [t_stmts]. rewrite !map_app, E4. reflexivity. }
    destruct (Ascii.eqb c dquote); [repeat split; auto|].
    destruct (Ascii.eqb c squote); repeat split; auto.
  - unfold state_quoted. cbn [t_state t_cur t_tokens t_stmts t_line].
    destruct (Ascii.eqb c backslash); [|destruct (Ascii.eqb c dquote)]; repeat split; auto.
  - repeat split; auto.
  - unfold state_quoted. cbn [t_state t_cur t_tokens t_stmts t_line].
    destruct (Ascii.eqb c backslash); [|destruct (Ascii.eqb c squote)]; repeat split; auto.
  - repeat split; auto.
  - destruct (chr_in c [nl; cr]); repeat split; auto.
Qed.

Lemma sim_bump : forall t1 t2 c, sim t1 t2 -> sim (bump_line t1 c) (bump_line t2 c).
Proof. intros [] [] c H. rewrite !bump_line_eq. exact H. Qed.

Lemma sim_run : forall s t1 t2, sim t1 t2 -> simres (tok_run t1 s) (tok_run t2 s).
Proof.
  induction s as [|c s IH]; intros t1 t2 H; cbn [tok_run]; auto.
  pose proof (sim_step t1 t2 c H) as S. unfold simres in S.
  destruct (tok_step t1 c), (tok_step t2 c); try contradiction; cbn [rbind].
  - apply IH, sim_bump, S.
  - exact S.
Qed.

Definition same_content (r1 r2 : res (list stmt)) : Prop :=
  match r1, r2 with
  | Ok s1, Ok s2 => map content s1 = map content s2
  | Err e1, Err e2 => e1 = e2
  | _, _ => False
  end.

Lemma line_statement_content : forall toks n m,
  map content (line_statement toks n) = map content (line_statement toks m).
Proof. intros [|[|c f] t] n m; reflexivity. Qed.

Lemma layout_line : forall ss pre m ps qs e e' rest,
  lines 1 ss pre m -> pieces_ok ps -> pieces_ok qs -> pieces_tokens ps = pieces_tokens qs ->
  line_end e -> line_end e' ->
  same_content (tokenize (pre ++ pieces_text ps ++ e ++ rest))
               (tokenize (pre ++ pieces_text qs ++ e' ++ rest)).
Proof.
  intros ss pre m ps qs e e' rest L P Q T E E'.
  unfold tokenize, tok_init.
  rewrite <- !app_assoc, (tok_run_app pre), (tok_run_app pre).
  rewrite (run_lines 1 ss pre m) by auto. cbn [rbind app].
  rewrite (tok_run_app (pieces_text ps)), (tok_run_app (pieces_text qs)).
  destruct (run_pieces ps [] [] ss m P (or_introl eq_refl)) as (c1 & t1 & R1 & F1 & _).
  destruct (run_pieces qs [] [] ss m Q (or_introl eq_refl)) as (c2 & t2 & R2 & F2 & _).
  rewrite R1, R2. cbn [rbind].
  rewrite (tok_run_app e), (tok_run_app e'), !run_line_end by auto. cbn [rbind].
  rewrite F1, F2, T. cbn [flush app].
  match goal with |- context [tok_run ?x (rest ++ [nl])] => set (x1 := x) end.
  match goal with |- context [let? t := tok_run ?x (rest ++ [nl]) in _] =>
    lazymatch x with x1 => fail | _ => set (x2 := x) end end.
  assert (S : sim x1 x2).
  { repeat split. cbn [t_stmts x1 x2]. rewrite !map_app. f_equal. apply line_statement_content. }
  pose proof (sim_run (rest ++ [nl]) x1 x2 S) as R. unfold simres in R.
  destruct (tok_run x1 (rest ++ [nl])), (tok_run x2 (rest ++ [nl])); try contradiction; cbn.
  - apply R.
  - exact R.
Qed.

(** A final newline does not matter. *)
Lemma final_newline : forall text ss, source 1 ss text -> tokenize (text ++ [newline]) = Ok ss.
Proof.
  intros text ss H. rewrite (tokenize_app text [] ss) by auto. cbn.
  rewrite app_nil_r. reflexivity.
Qed.

(** Words with separators are pieces. *)
Definition spaced_pieces (lead : str) (l : list (str * str)) (last trail : str) : list piece :=
  map PSep lead ++ flat_map (fun ws => PWord (fst ws) :: map PSep (snd ws)) l
  ++ PWord last :: map PSep trail.

Lemma seps_text : forall s, pieces_text (map PSep s) = s.
Proof. unfold pieces_text. induction s; auto. cbn. f_equal. exact IHs. Qed.
Lemma seps_tokens : forall s, pieces_tokens (map PSep s) = [].
Proof. induction s; auto. Qed.

Lemma separated_seps : forall s ps, separated ps -> separated (map PSep s ++ ps).
Proof.
  induction s as [|c s IH]; intros ps H; auto. cbn [map app].
  specialize (IH ps H). destruct (map PSep s ++ ps); cbn [separated]; auto.
Qed.

Lemma separated_word_seps : forall w s ps, s <> [] -> separated ps ->
  separated (PWord w :: map PSep s ++ ps).
Proof.
  intros w [|c s] ps N H; [congruence|].
  pose proof (separated_seps (c :: s) ps H) as S. cbn [map app] in *. split; auto.
Qed.

Lemma spaced_pieces_ok : forall lead l last trail, spaced_ok lead l last trail ->
  pieces_ok (spaced_pieces lead l last trail) /\
  pieces_text (spaced_pieces lead l last trail) = spaced_text lead l last trail /\
  pieces_tokens (spaced_pieces lead l last trail) = spaced_tokens l last.
Proof.
  intros lead l last trail (L & T & W & F). unfold spaced_pieces, spaced_text, spaced_tokens.
  assert (SP : forall s, sep_run s -> Forall piece_ok (map PSep s)).
  { intros s S. induction S; constructor; auto. }
  split; [split|split].
  - rewrite !Forall_app. repeat split; auto.
    + clear - F SP. induction F as [|[w s] l (H1 & H2 & H3) F IH]; [constructor|].
      cbn [flat_map fst snd]. apply Forall_app. split; auto.
  - apply separated_seps. clear - F. induction F as [|[w s] l (H1 & H2 & H3) F IH].
    + cbn [flat_map app]. destruct trail as [|c t]; [exact I|].
      split; [reflexivity|].
      pose proof (separated_seps (c :: t) [] I) as X. rewrite app_nil_r in X. exact X.
    + cbn [flat_map fst snd]. rewrite <- app_assoc. cbn [app]. apply separated_word_seps; auto.
  - unfold pieces_text. rewrite !flat_map_app.
    fold (pieces_text (map PSep lead)). rewrite seps_text. f_equal. f_equal.
    + clear. induction l as [|[w s] l IH]; auto. cbn [flat_map fst snd]. rewrite flat_map_app, IH.
      cbn [flat_map piece_text]. fold (pieces_text (map PSep s)). rewrite seps_text. reflexivity.
    + cbn [flat_map piece_text]. fold (pieces_text (map PSep trail)). rewrite seps_text. reflexivity.
  - unfold pieces_tokens. rewrite !flat_map_app.
    fold (pieces_tokens (map PSep lead)). rewrite seps_tokens. cbn [app]. f_equal.
    + clear. induction l as [|[w s] l IH]; auto. cbn [flat_map fst snd map].
      rewrite flat_map_app, IH. cbn [flat_map piece_tokens].
      fold (pieces_tokens (map PSep s)). rewrite seps_tokens. reflexivity.
    + cbn [flat_map piece_tokens]. fold (pieces_tokens (map PSep trail)). rewrite seps_tokens.
      reflexivity.
Qed.

Lemma one_line : forall ps e n, pieces_ok ps -> file_end e ->
  source n (line_statement (pieces_tokens ps) (n + newlines (pieces_text ps)))
           (pieces_text ps ++ e).
Proof.
  intros ps e n P E. apply (source_intro n [] [] n ps e); auto. constructor.
Qed.

Lemma sep_run_newlines : forall s, sep_run s -> newlines s = 0.
Proof.
  induction 1; auto. cbn [newlines]. rewrite IHForall.
  pose proof (sep_newlines x H). cbn [newlines] in H1. lia.
Qed.

Lemma spaced_newlines : forall lead l last trail, spaced_ok lead l last trail ->
  newlines (spaced_text lead l last trail) = 0.
Proof.
  intros lead l last trail (L & T & [_ W] & F). unfold spaced_text. rewrite !newlines_app.
  rewrite (sep_run_newlines lead), (sep_run_newlines trail), (word_newlines last) by auto.
  rewrite !Z.add_0_r, Z.add_0_l. clear L. induction F as [|[w s] l ([_ H1] & H2 & H3) F IH]; auto. cbn [flat_map fst snd].
  rewrite !newlines_app. cbn [fst snd] in *.
  rewrite (word_newlines w), (sep_run_newlines s), IH by auto. reflexivity.
Qed.

Lemma escape_raw : forall q text, raw q text (escape q text).
Proof.
  intros q. induction text as [|c t IH]; [constructor|]. cbn [escape flat_map].
  destruct (Ascii.eqb_spec c q); cbn [orb app]; [constructor; auto|].
  destruct (Ascii.eqb_spec c "\"); cbn [app]; constructor; auto.
Qed.
