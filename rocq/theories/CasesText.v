(** Concrete cases of C03 to C13: every theorem is applied to an example that
    meets its hypotheses. *)
From Coq Require Import Lia.
From Verif Require Import Py PyFacts Utils Tokenizer State Assembler Demo.
From Verif Require Import SpecUtils SpecParse SpecTok SpecSubst.
From Verif Require Import TokFacts SubstFacts PropsUtils PropsParse PropsTok.
Local Open Scope Z_scope.

(** Characters outside a given list; lists without operators; heads. *)
Ltac outside := let I := fresh in intros I; cbn in I; repeat (destruct I as [I|I]; [discriminate|]); exact I.
Ltac no_ops_in := repeat (apply Forall_cons; [outside|]); apply Forall_nil.
Ltac no_select_in :=
  let c := fresh in let t := fresh in let E := fresh in
  intros c t E; first [discriminate E | injection E as <- _; split; discriminate].
Ltac selects :=
  repeat (apply Forall_cons; [first [left; reflexivity | right; reflexivity]|]); apply Forall_nil.
Ltac digits := repeat (split || (left; reflexivity) || (right; reflexivity) || lia).
Ltac word_chars :=
  repeat (apply Forall_cons; [unfold is_word_char, is_sep, is_bracket, is_quote;
    repeat split; first [outside | discriminate]|]); apply Forall_nil.

(** ** Utilities *)

Example C03_pack_bits_read_back_case : Z.shiftr 0x850f 8 mod 2 ^ 4 = 5 mod 2 ^ 4 :=
  C03_pack_bits_read_back [((3, 0), -1)] ((11, 8), 5) [] 0x8000 0x850f
    ltac:(repeat constructor; cbn; lia)
    ltac:(repeat constructor; right; cbn; lia)
    ltac:(intros i I; cbn in I; assert (i = 8 \/ i = 9 \/ i = 10 \/ i = 11) as [->|[->|[->| ->]]]
            by lia; reflexivity)
    eq_refl.

(** ** Integers and formulas *)

Example C05_case : (false = false -> 0 <= 12 < 2 ^ 8) /\
  (false = true -> - 2 ^ (8 - 1) <= 12 < 2 ^ (8 - 1) \/
     (0 <= 12 < 2 ^ 8 /\ exists a s b, #"$a+2" = a ++ s ++ b /\ nondecimal ex_pcfg s)) :=
  C05_parsed_integers_fit ex_pcfg [] #"$a+2" 8 false 12 ltac:(lia) ltac:(vm_compute; reflexivity).

Lemma two : literal ex_pcfg #"2" 2 true.
Proof.
  apply ex_dec; [digits|lia|]. repeat constructor; intros [t E]; discriminate.
Qed.

Lemma zero : literal ex_pcfg #"0" 0 true.
Proof.
  apply ex_dec; [digits|lia|]. repeat constructor; intros [t E]; discriminate.
Qed.

Lemma nothing : forall v, select [] v = v.
Proof. intros. unfold select. cbn [existsb length]. rewrite Z.pow_0_r, Z.div_1_r. reflexivity. Qed.

Lemma selected_nothing : selector [].
Proof. constructor. Qed.

(** >foo: the name of a label, its high byte. *)
Lemma high_foo : arg_denotes ex_pcfg ex_labels #">foo" 0x12.
Proof.
  apply (arg_label ex_pcfg ex_labels #">" #"foo" 0x1234).
  - selects.
  - no_select_in.
  - no_ops_in.
  - vm_compute. reflexivity.
  - eexists. split; reflexivity.
Qed.

Lemma plus_foo : forall v, chain_result ex_pcfg ex_labels [("+"%char, #">foo")] v (v + 0x12).
Proof. intros. eapply chain_cons; [exact high_foo|constructor|constructor]. Qed.

Lemma plus_foo_ok : forall op arg, In op op_chars -> no_ops arg ->
  chain_ok [("+"%char, #">foo"); (op, arg)].
Proof.
  intros. apply Forall_cons; [split; [left; reflexivity|no_ops_in]|].
  apply Forall_cons; [split; assumption|apply Forall_nil].
Qed.

Example C07_formula_case : parse_integer ex_pcfg ex_labels #"2+>foo" 8 false = Ok (Some 20) :=
  C07_formula_left_to_right ex_pcfg ex_labels [] #"2" 2 true [("+"%char, #">foo")] 20 8 false 20
    ltac:(lia) selected_nothing ltac:(no_select_in) ltac:(no_ops_in) two
    ltac:(apply Forall_cons; [split; [left; reflexivity|no_ops_in]|apply Forall_nil])
    ltac:(rewrite nothing; apply plus_foo) ltac:(cbn; lia).

Example C07_label_formula_case :
  label_relative ex_pcfg ex_labels #"<foo+>foo" 0x1000 = Ok (Some (0x34 + 0x12)) :=
  proj1 (C07_label_formula_left_to_right ex_pcfg ex_labels #"<" #"foo" 0x1234 0x1000
    [("+"%char, #">foo")] (0x34 + 0x12)
    ltac:(selects) ltac:(no_select_in) ltac:(no_ops_in)
    ltac:(discriminate) ltac:(apply Forall_cons; [split; [left; reflexivity|no_ops_in]|apply Forall_nil])
    ltac:(eexists; split; reflexivity) (plus_foo 0x34)).

Example C07_unknown_name_case :
  parse_integer ex_pcfg ex_labels #"2+>foo-<bar" 8 false = Err (AExc (UnknownLabel #"<bar")) :=
  C07_unknown_name ex_pcfg ex_labels [] #"2" 2 true [("+"%char, #">foo")] "-"%char #"<" #"bar" [] 20
    8 false selected_nothing ltac:(no_select_in) ltac:(no_ops_in) two
    (plus_foo_ok "-"%char #"<bar" ltac:(right; left; reflexivity) ltac:(no_ops_in))
    ltac:(rewrite nothing; apply plus_foo)
    ltac:(selects) ltac:(no_select_in) ltac:(no_ops_in)
    ltac:(discriminate) ltac:(vm_compute; reflexivity) eq_refl.

Example C07_division_by_zero_case :
  parse_integer ex_pcfg ex_labels #"2+>foo/0" 8 false = Err (PExc ZeroDivisionError) :=
  C07_division_by_zero ex_pcfg ex_labels [] #"2" 2 true [("+"%char, #">foo")] #"0" [] 20
    8 false selected_nothing ltac:(no_select_in) ltac:(no_ops_in) two
    (plus_foo_ok "/"%char #"0" ltac:(do 3 right; left; reflexivity) ltac:(no_ops_in))
    ltac:(rewrite nothing; apply plus_foo)
    ltac:(rewrite <- (nothing 0); apply (arg_literal ex_pcfg ex_labels [] #"0" 0 true);
          [exact selected_nothing|no_select_in|no_ops_in|exact zero|rewrite nothing; lia]).

(** ** Source text *)

Example C11_compositional_case : forall b,
  tokenize (ex_line1 ++ newline :: b) = match tokenize b with
  | Ok ssb => Ok ([Stmt KLabel [#"loop"] 1; Stmt KInstruction [#"ld"; #"a"; #"["; #"bc"; #"]"] 1]
                  ++ shift_lines (newlines ex_line1 + 1) ssb)
  | Err e => Err e
  end := fun b => C11_compositional ex_line1 b _ (proj2 C11_example).

(** A line before it, other separators, a comment. *)
Example C09_layout_case : forall rest,
  match tokenize (newline :: #"ld a" ++ newline :: rest),
        tokenize (newline :: #",ld,, a ;x" ++ creturn :: rest) with
  | Ok s1, Ok s2 => map content s1 = map content s2
  | Err e1, Err e2 => e1 = e2
  | _, _ => False
  end :=
  fun rest => C09_layout [] [newline] 2
    [PWord #"ld"; PSep " "%char; PWord #"a"]
    [PSep ","%char; PWord #"ld"; PSep ","%char; PSep ","%char; PSep " "%char; PWord #"a"; PSep " "%char]
    [newline] (#";x" ++ [creturn]) rest
    ltac:(exact (lines_line 1 [] [newline] [] [] 2 ltac:(repeat constructor) ltac:(constructor)
                   ltac:(constructor)))
    ltac:(repeat (apply conj || apply Forall_cons || apply Forall_nil);
          first [exact I | reflexivity | discriminate | outside | cbn; auto; fail])
    ltac:(repeat (apply conj || apply Forall_cons || apply Forall_nil);
          first [exact I | reflexivity | discriminate | outside | cbn; auto; fail])
    eq_refl end_nl
    ltac:(apply (end_comment #"x" creturn); [repeat constructor; discriminate|right; reflexivity]).

Example C09_separators_case :
  tokenize #"  ld , a,#5; five: 5" = Ok [Stmt KInstruction [#"ld"; #"a"; #"#5"] 1] :=
  C09_separators #"  " [(#"ld", #" , "); (#"a", #",")] #"#5" [] #"; five: 5" (proj1 C09_example)
    ltac:(apply (file_end_comment #" five: 5"); repeat constructor; discriminate).

Example C09_final_newline_case : tokenize (ex_line1 ++ [newline]) =
  Ok [Stmt KLabel [#"loop"] 1; Stmt KInstruction [#"ld"; #"a"; #"["; #"bc"; #"]"] 1] :=
  C09_final_newline ex_line1 _ (proj2 C11_example).

Example C12_malformed_label_case : forall c fuel s,
  assemble c fuel #"nop x: nop" s = (s, Err (PExc TokenizerInvalidLabel)) :=
  fun c fuel s => C12_malformed_label_atomic c fuel #"nop x: nop" s (proj1 C12_example).

Example C13_untouched_case : substitute_with_dict [#"FOO"; #"FOOX"] ex_defs 1 = [#"FOO"; #"FOOX"] :=
  C13_untouched [#"FOO"; #"FOOX"] ex_defs 1
    ltac:(apply Forall_cons; [exact (proj2 (proj2 C13_example))|apply Forall_nil]).

Example C10_quoted_token_case : exists n,
  tokenize (#"[" ++ dquote :: escape dquote ex_text ++ dquote :: #" x" ++ #";c")
  = Ok (line_statement ([#"["] ++ (dquote :: ex_text ++ [dquote]) :: [#"x"]) n) :=
  C10_quoted_token [PBracket "["%char] [PSep " "%char; PWord #"x"] dquote ex_text (escape dquote ex_text)
    #";c" ltac:(left; reflexivity) ltac:(discriminate) (proj1 (C10_escape dquote ex_text))
    ltac:(repeat constructor; right; right; left; reflexivity)
    ltac:(repeat (apply conj || apply Forall_cons || apply Forall_nil);
          first [exact I | reflexivity | discriminate | outside | cbn; auto; fail])
    ltac:(apply (file_end_comment #"c"); repeat constructor; discriminate).

Example C10_db_string_case : exists s',
  assemble demo 3 (#".db " ++ dquote :: escape dquote ex_text ++ [dquote]) (demo_state ["nop"%string])
    = (s', Ok tt) /\
  assembled s' = [234] ++ map ord ex_text /\ pc s' = 1 + zlen ex_text :=
  C10_db_string demo 3 (demo_state ["nop"%string]) dquote ex_text (escape dquote ex_text)
    ltac:(left; reflexivity) ltac:(discriminate) (proj1 (C10_escape dquote ex_text))
    (proj1 (proj2 (proj2 C10_example))) (proj2 (proj2 (proj2 C10_example)))
    ltac:(vm_compute; reflexivity) ltac:(vm_compute; reflexivity).

(** ** The remaining ones with a hypothesis *)

Example C03_pack_bits_exact_case := proj1 (C03_pack_bits_exact [((3, 0), -1); ((11, 8), 5)] 0x8000 ltac:(repeat constructor; cbn; lia))
  (proj1 (proj2 C03_example)).
Example C03_pack_bits_exact_refuses := proj2 (C03_pack_bits_exact [((3, 0), 16)] 0 ltac:(repeat constructor; cbn; lia))
  ltac:(let H := fresh in intros H; inversion H; apply (proj1 (proj2 (proj2 C03_example))); assumption).
Example C06_literals_case := C06_literals_round_trip ex_pcfg [] #"$1aF" 0x1af false 16 false ltac:(lia)
  (proj1 (proj2 C06_example)) (proj1 C06_example) ltac:(intros c E; discriminate E).
Example C06_literals_accepted := proj1 C06_literals_case 0x1af (proj1 (proj2 (proj2 C06_example))).
Example C06_literals_refused := proj2 (C06_literals_round_trip ex_pcfg [] #"$1aF" 0x1af false 8 false ltac:(lia)
  (proj1 (proj2 C06_example)) (proj1 C06_example) ltac:(intros c E; discriminate E)) (proj1 (proj2 (proj2 (proj2 C06_example)))).
Example C08_addresses_case := C08_only_addresses_matter ex_pcfg _ _ #"1+<foo*foo" 16 false 0 (proj1 C08_example).
Example C11_grammar_case := C11_grammar _ _ (proj2 C11_example).
Example C11_grammar_complete_case := C11_grammar_complete _ _ (proj1 C11_example).
