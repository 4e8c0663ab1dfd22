(** Properties of reading source text: C09 to C13. *)
From Coq Require Import Lia.
From Verif Require Import Py PyFacts Utils Tokenizer State Assembler.
From Verif Require Import SpecTok SpecSubst TokFacts SubstFacts.
Local Open Scope Z_scope.

(** ** C11: the statements of a text and their line numbers *)

(** A source text denotes exactly the statements the grammar assigns to it, with
    the line numbers the grammar computes; and the grammar covers every text
    except those with a misplaced colon or an unterminated quote. *)
Theorem C11_grammar : forall ss text, source 1 ss text -> tokenize text = Ok ss.
Proof. exact source_tokenize. Qed.
Print Assumptions C11_grammar.

Theorem C11_grammar_complete : forall text ss, tokenize text = Ok ss ->
  source 1 ss text \/ unterminated text.
Proof.
  intros text ss H. destruct (tokenize_cases text) as [(ss' & S & T)|[[_ T]|[U _]]]; auto.
  - left. congruence.
  - congruence.
Qed.
Print Assumptions C11_grammar_complete.

Theorem C11_compositional : forall a b ssa, source 1 ssa a ->
  tokenize (a ++ newline :: b) =
  match tokenize b with
  | Ok ssb => Ok (ssa ++ shift_lines (newlines a + 1) ssb)
  | Err e => Err e
  end.
Proof.
  intros. rewrite (tokenize_app a b ssa) by auto. destruct (tokenize b); reflexivity.
Qed.
Print Assumptions C11_compositional.

(** Two lines: a comment, a label, an instruction and a directive with a string
    that spans a newline. *)
Definition ex_line1 : str := #"loop: ld a, [bc] ; load".
Definition ex_line2 : str := #".db 'x" ++ newline :: #"y' 1".
Example C11_example :
  tokenize (ex_line1 ++ newline :: ex_line2) =
    Ok [Stmt KLabel [#"loop"] 1; Stmt KInstruction [#"ld"; #"a"; #"["; #"bc"; #"]"] 1;
        Stmt KDirective [#".db"; #"'x" ++ newline :: #"y'"; #"1"] 3] /\
  source 1 [Stmt KLabel [#"loop"] 1; Stmt KInstruction [#"ld"; #"a"; #"["; #"bc"; #"]"] 1] ex_line1.
Proof.
  split; [vm_compute; reflexivity|].
  destruct (tokenize_cases ex_line1) as [(ss & S & T)|[[_ T]|[U _]]].
  - replace (tokenize ex_line1) with
      (@Ok (list stmt) [Stmt KLabel [#"loop"] 1; Stmt KInstruction [#"ld"; #"a"; #"["; #"bc"; #"]"] 1])
      in T by (vm_compute; reflexivity). injection T as <-. exact S.
  - exfalso. revert T. vm_compute. discriminate.
  - exfalso. clear - U. destruct U as (ss & pre & m & ps & q & r & t & e & _ & _ & Q & _ & _ & E).
    assert (I : In q ex_line1).
    { rewrite E, !in_app_iff. right. right. left. reflexivity. }
    destruct Q as [<-|[<-|[]]]; vm_compute in I;
      repeat (destruct I as [I|I]; [discriminate|]); exact I.
Qed.

(** ** C09: layout *)

(** Changing the layout of one line of a text (the pieces that are not tokens,
    how the line ends, its comment) changes nothing but line numbers, whatever
    follows the line. *)
Theorem C09_layout : forall ss pre m ps qs e e' rest,
  lines 1 ss pre m -> pieces_ok ps -> pieces_ok qs -> pieces_tokens ps = pieces_tokens qs ->
  line_end e -> line_end e' ->
  match tokenize (pre ++ pieces_text ps ++ e ++ rest),
        tokenize (pre ++ pieces_text qs ++ e' ++ rest) with
  | Ok s1, Ok s2 => map content s1 = map content s2
  | Err e1, Err e2 => e1 = e2
  | _, _ => False
  end.
Proof. exact layout_line. Qed.
Print Assumptions C09_layout.

(** Any separators around and between words, any comment: one statement made of
    exactly the words. *)
Theorem C09_separators : forall lead l last trail e, spaced_ok lead l last trail ->
  file_end e ->
  tokenize (spaced_text lead l last trail ++ e)
  = Ok (line_statement (spaced_tokens l last) 1).
Proof.
  intros lead l last trail e H E.
  destruct (spaced_pieces_ok lead l last trail H) as (P & T & K).
  pose proof (one_line _ e 1 P E) as S. rewrite T, K, (spaced_newlines lead l last trail H) in S.
  apply source_tokenize. exact S.
Qed.
Print Assumptions C09_separators.

Theorem C09_final_newline : forall text ss, source 1 ss text ->
  tokenize (text ++ [newline]) = Ok ss.
Proof. exact final_newline. Qed.
Print Assumptions C09_final_newline.

Example C09_example :
  spaced_ok #"  " [(#"ld", #" , "); (#"a", #",")] #"#5" [] /\
  spaced_text #"  " [(#"ld", #" , "); (#"a", #",")] #"#5" [] = #"  ld , a,#5" /\
  tokenize #"  ld , a,#5; five: 5" = Ok [Stmt KInstruction [#"ld"; #"a"; #"#5"] 1].
Proof.
  assert (W : forall w, w <> [] -> Forall (fun c => chr_in c #"lda#5" = true) w -> plain_word w).
  { intros w N F. split; auto. eapply Forall_impl; [|exact F]. intros c C. apply chr_in_In in C.
    unfold is_word_char, is_sep, is_bracket, is_quote.
    cbn in C. repeat (destruct C as [<-|C]; [
      repeat split; try discriminate; intros I; cbn in I;
      repeat (destruct I as [I|I]; [discriminate|]); exact I|]). contradiction. }
  split; [|split; vm_compute; reflexivity].
  assert (S : forall s, Forall (fun c => chr_in c #" ," = true) s -> sep_run s).
  { intros s F. eapply Forall_impl; [|exact F]. intros c C. apply chr_in_In in C.
    cbn in C. destruct C as [<-|[<-|[]]]; [left|do 2 right; left]; reflexivity. }
  split; [apply S; repeat constructor|]. split; [apply S; constructor|].
  split; [apply W; [discriminate|repeat constructor]|].
  apply Forall_cons; [|apply Forall_cons; [|apply Forall_nil]]; cbn [fst snd];
    (split; [apply W; [discriminate|repeat constructor]|]);
    (split; [apply S; repeat constructor|discriminate]).
Qed.

(** ** C12: malformed labels *)

(** assemble() on a text with a misplaced colon raises and leaves the state as
    it was; the tokenizer fails on no other text. *)
Theorem C12_malformed_label_atomic : forall c fuel text s, misplaced_colon text ->
  assemble c fuel text s = (s, Err (PExc TokenizerInvalidLabel)).
Proof.
  intros c fuel text s H. apply misplaced_colon_fails in H.
  destruct fuel; cbn [assemble]; unfold bind at 1, lift; rewrite H; reflexivity.
Qed.
Print Assumptions C12_malformed_label_atomic.

Theorem C12_only_failure : forall text e, tokenize text = Err e ->
  misplaced_colon text /\ e = PExc TokenizerInvalidLabel.
Proof.
  intros text e H. destruct (tokenize_cases text) as [(ss' & S & T)|[[U T]|[U (ss & T)]]]; try congruence.
  split; auto. congruence.
Qed.
Print Assumptions C12_only_failure.

Example C12_example : misplaced_colon #"nop x: nop" /\ tokenize #"nop x nop" <> tokenize #"nop x: nop".
Proof.
  split.
  - destruct (C12_only_failure #"nop x: nop" (PExc TokenizerInvalidLabel)) as [H _];
      [vm_compute; reflexivity|exact H].
  - vm_compute. discriminate.
Qed.

(** ** C13: define substitution *)

(** Every token from the start index on is replaced as the specification says,
    and that determines it; the others and the number of tokens are kept. *)
Theorem C13_substitution : forall tokens dict start,
  let out := substitute_with_dict tokens dict start in
  length out = length tokens /\
  (forall i t, nth_error tokens i = Some t ->
     (i < start)%nat -> nth_error out i = Some t) /\
  (forall i t, nth_error tokens i = Some t -> (start <= i)%nat ->
     exists u, nth_error out i = Some u /\ substituted dict t u /\
               forall u', substituted dict t u' -> u' = u).
Proof.
  intros tokens dict start out.
  assert (LF : forall i t, nth_error tokens i = Some t -> (i < length tokens)%nat).
  { intros i t H. apply nth_error_Some. congruence. }
  unfold out, substitute_with_dict. repeat split.
  - rewrite <- (firstn_skipn start tokens) at 3. rewrite !app_length, map_length. reflexivity.
  - intros i t H L. specialize (LF i t H). rewrite nth_error_app1 by (rewrite firstn_length; lia).
    rewrite <- (firstn_skipn start tokens) in H.
    rewrite nth_error_app1 in H by (rewrite firstn_length; lia). exact H.
  - intros i t H L. specialize (LF i t H). exists (subst_token dict t).
    assert (LN : length (firstn start tokens) = start) by (rewrite firstn_length; lia).
    rewrite nth_error_app2 by lia. rewrite <- (firstn_skipn start tokens) in H.
    rewrite nth_error_app2 in H by lia. rewrite LN in *.
    rewrite nth_error_map, H. split; [reflexivity|]. split; [apply subst_token_substituted|].
    intros u' S. eapply substituted_unique; eauto. apply subst_token_substituted.
Qed.
Print Assumptions C13_substitution.

(** Every token splits into maximal names and other characters in one way. *)
Theorem C13_chunks : forall token, exists ks, chunks_of token ks /\
  forall ks', chunks_of token ks' -> ks' = ks.
Proof.
  intros token. destruct (subst_chars_chunks [] token [] (Forall_nil _)) as (ks & K & _).
  exists ks. split; auto. intros. eapply chunks_unique; eauto.
Qed.
Print Assumptions C13_chunks.

Theorem C13_untouched : forall tokens dict start,
  Forall (untouched dict) (skipn start tokens) -> substitute_with_dict tokens dict start = tokens.
Proof. intros. apply substitute_untouched; auto. Qed.
Print Assumptions C13_untouched.

Definition ex_defs : list (str * str) := [(#"FOO", #"BAR"); (#"BAR", #"7"); (#"a+b", #"z")].
(** One pass, whole names only, composed keys by whole-token lookup. *)
Example C13_example :
  substitute_with_dict [#"FOO"; #"FOO+(FOOX)*BAR"; #"a+b"; #"a+b+c"] ex_defs 1
    = [#"FOO"; #"BAR+(FOOX)*7"; #"z"; #"a+b+c"] /\
  substituted ex_defs #"FOO+x" #"BAR+x" /\ untouched ex_defs #"FOOX".
Proof.
  assert (NC : forall c, valid_name_char c = true -> name_char c)
    by (intros; apply valid_name_char_spec; auto).
  split; [vm_compute; reflexivity|]. split.
  - apply (subst_parts ex_defs #"FOO+x" [Name #"FOO"; Other "+"; Name #"x"]).
    + vm_compute. reflexivity.
    + split; [|repeat split].
      apply Forall_cons; [|apply Forall_cons; [|apply Forall_cons; [|apply Forall_nil]]].
      * split; [discriminate|repeat (apply Forall_cons || apply Forall_nil); apply NC; reflexivity].
      * intros J. apply valid_name_char_spec in J. vm_compute in J. discriminate.
      * split; [discriminate|repeat (apply Forall_cons || apply Forall_nil); apply NC; reflexivity].
  - split; [vm_compute; reflexivity|]. intros ks K w I.
    rewrite (chunks_unique ks [Name #"FOOX"] #"FOOX" K) in I.
    + destruct I as [I|[]]. injection I as <-. vm_compute. reflexivity.
    + split; [|repeat split].
      apply Forall_cons; [|apply Forall_nil].
      split; [discriminate|repeat (apply Forall_cons || apply Forall_nil); apply NC; reflexivity].
Qed.

(** Substitution also applies inside string literals. *)
Theorem C13_string_literals_refuted : exists dict text,
  substitute_with_dict [#".db"; dquote :: text ++ [dquote]] dict 1
  <> [#".db"; dquote :: text ++ [dquote]].
Proof. exists ex_defs, #"say FOO!". vm_compute. discriminate. Qed.
Print Assumptions C13_string_literals_refuted.

(** ** C10: quoted literals *)

(** A quoted text is one token holding the text, wherever it occurs on a line. *)
Theorem C10_quoted_token : forall ps qs q text r e, is_quote q -> text <> [] ->
  raw q text r -> pieces_ok ps -> pieces_ok qs -> file_end e ->
  exists n, tokenize (pieces_text ps ++ q :: r ++ q :: pieces_text qs ++ e)
  = Ok (line_statement (pieces_tokens ps ++ (q :: text ++ [q]) :: pieces_tokens qs) n).
Proof.
  intros ps qs q text r e Q N R P P' E.
  assert (OK : pieces_ok (ps ++ PQuote q text r :: qs)).
  { destruct P as [F S], P' as [F' S']. split.
    - apply Forall_app. split; auto. constructor; auto. split; auto.
    - clear - S S'. induction ps as [|a ps IH].
      + cbn [app]. destruct qs; [exact I|]. split; auto.
      + specialize (IH (separated_tl _ _ S)). cbn [app].
        destruct ps as [|b ps]; cbn [app] in *.
        * split; auto. apply andb_false_r.
        * destruct S as [S1 S2]. split; auto. }
  eexists. pose proof (one_line _ e 1 OK E) as X. apply source_tokenize in X.
  revert X. unfold pieces_text, pieces_tokens. rewrite !flat_map_app.
  cbn [flat_map piece_text piece_tokens]. destruct text as [|c text]; [congruence|].
  intros X. etransitivity; [|exact X]. f_equal.
  rewrite <- !app_assoc. cbn [app]. rewrite <- !app_assoc. reflexivity.
Qed.
Print Assumptions C10_quoted_token.

(** Every non-empty text can be written that way by escaping only the quote and
    the backslash. *)
Theorem C10_escape : forall q text, raw q text (escape q text) /\
  (Forall (fun c => c <> q /\ c <> "\"%char) text -> escape q text = text).
Proof.
  intros q text. split; [apply escape_raw|]. induction 1 as [|c t [N1 N2] F IH]; auto.
  cbn [escape flat_map]. rewrite (eqb_neq _ _ N1), (eqb_neq _ _ N2). cbn. f_equal. exact IH.
Qed.
Print Assumptions C10_escape.

Lemma encode_ascii_ok : forall t, Forall (fun c => ord c < 128) t -> encode_ascii t = Ok (map ord t).
Proof.
  induction 1 as [|c t H F IH]; auto. cbn [encode_ascii map].
  apply Z.ltb_lt in H. rewrite H, IH. reflexivity.
Qed.

(** .db of a quoted ASCII text appends exactly the codes of its characters. *)
Theorem C10_db_string : forall c fuel s q text r,
  is_quote q -> text <> [] -> raw q text r -> Forall (fun ch => ord ch < 128) text ->
  untouched (defines s) (q :: text ++ [q]) ->
  dget str_eqb (c_directives c) (if case_sensitive (c_p c) then #"db" else #"DB") = Some D_db ->
  current_org_end s = 0 ->
  exists s', assemble c fuel (#".db " ++ q :: r ++ [q]) s = (s', Ok tt) /\
    assembled s' = assembled s ++ map ord text /\
    pc s' = pc s + zlen text.
Proof.
  intros c fuel s q text r Q N R A U D E.
  assert (P : pieces_ok [PWord #".db"; PSep " "]).
  { split; [|repeat split].
    constructor; [split; [discriminate|]|constructor; [left; reflexivity|constructor]].
    assert (W : forall x, In x #".db" -> is_word_char x).
    { unfold is_word_char, is_sep, is_bracket, is_quote. cbn.
      intros x I. repeat (destruct I as [<-|I]; [
        repeat split; try discriminate; intros J;
        repeat (destruct J as [J|J]; [discriminate|]); exact J|]). contradiction. }
    apply Forall_forall. exact W. }
  destruct (C10_quoted_token [PWord #".db"; PSep " "] [] q text r [] Q N R P
              (conj (Forall_nil _) I) file_end_plain) as [n T].
  cbn [pieces_text flat_map app pieces_tokens piece_text piece_tokens list_ascii_of_string] in T.
  rewrite ?app_nil_r in T. cbn [line_statement Ascii.eqb Bool.eqb] in T.
  set (tk := q :: text ++ [q]) in *.
  assert (SUB : substitute_with_dict [#".db"; tk] (defines s) 1 = [#".db"; tk]).
  { apply substitute_untouched. cbn [skipn]. constructor; auto. }
  assert (INNER : inner tk = text) by apply inner_quoted.
  assert (DIR : forall asm, directive_assemble c asm [#".db"; tk] s =
     (set_counter (set_assembled s (assembled s ++ map ord text)) (org_counter s + zlen text), Ok tt)).
  { intros asm. unfold directive_assemble, bind, get. rewrite SUB. cbn [tok_at nth_error ret].
    unfold ret. cbv zeta.
    match goal with |- context [dget str_eqb (c_directives c) ?k] =>
      replace (dget str_eqb (c_directives c) k) with (Some D_db)
        by (rewrite <- D; destruct (case_sensitive (c_p c)); reflexivity) end.
    cbn [run_directive]. unfold directive_db. cbn [skipn iter].
    unfold data_token, bind, lift.
    assert (IQ : is_quoted tk = Ok true).
    { unfold is_quoted, tk. f_equal. destruct Q as [<-|[<-|[]]]; reflexivity. }
    rewrite IQ, INNER, (encode_ascii_ok text) by auto.
    unfold append_assembled_bytes, modify, ret. unfold zlen. rewrite map_length. reflexivity. }
  eexists. split; [|split].
  - assert (EQ : (#".db " ++ q :: r ++ [q]) = "."%char :: "d"%char :: "b"%char :: " "%char :: q :: r ++ [q])
      by reflexivity.
    rewrite EQ.
    destruct fuel; cbn [assemble]; unfold bind at 1, lift; rewrite T;
      unfold bind at 1; cbn [iter]; unfold bind at 1; cbn [statement_assemble s_kind s_tokens];
      rewrite DIR; cbn [ret]; unfold assemble_tail, bind, get, ret, modify;
      cbn [current_org_end set_counter set_assembled set_org]; rewrite E; reflexivity.
  - unfold close_section. cbn [current_section set_counter set_assembled set_org sections].
    destruct (current_section s) as [[|x nm]|]; try reflexivity.
    destruct (dget str_eqb (sections s) (x :: nm)); reflexivity.
  - unfold close_section, pc. cbn [current_section set_counter set_assembled set_org sections].
    destruct (current_section s) as [[|x nm]|]; cbn; try lia.
    destruct (dget str_eqb (sections s) (x :: nm)); cbn; lia.
Qed.
Print Assumptions C10_db_string.

Definition ex_text : str := dquote :: #"a,b: ;'\" ++ [newline; "c"%char].
Example C10_example :
  escape dquote ex_text = "\"%char :: dquote :: #"a,b: ;'\\" ++ [newline; "c"%char] /\
  tokenize (#".db " ++ dquote :: escape dquote ex_text ++ [dquote])
    = Ok [Stmt KDirective [#".db"; dquote :: ex_text ++ [dquote]] 2] /\
  Forall (fun ch => ord ch < 128) ex_text /\ untouched [] (dquote :: ex_text ++ [dquote]).
Proof.
  repeat split; try (vm_compute; reflexivity).
  repeat constructor; vm_compute; reflexivity.
Qed.

(** An empty literal yields no token at all, so .db of it emits nothing. *)
Theorem C10_empty_literal_refuted : exists q, is_quote q /\
  tokenize (#".db " ++ [q; q]) = tokenize #".db".
Proof. exists dquote. split; [left; reflexivity|vm_compute; reflexivity]. Qed.
Print Assumptions C10_empty_literal_refuted.

(** A literal that is never closed is dropped silently, with its statement. *)
Theorem C10_unterminated_refuted : exists text, unterminated text /\
  tokenize text = Ok [] /\ text <> [].
Proof.
  exists (#"nop " ++ [dquote]). split; [|split; [vm_compute; reflexivity|intros E; inversion E]].
  destruct (tokenize_cases (#"nop " ++ [dquote])) as [(ss & S & T)|[[_ T]|[U _]]]; auto.
  - exfalso.
    apply (C11_compositional _ #"nop") in S. vm_compute in S. injection S as S.
    destruct ss; discriminate S.
  - exfalso. revert T. vm_compute. discriminate.
Qed.
Print Assumptions C10_unterminated_refuted.
