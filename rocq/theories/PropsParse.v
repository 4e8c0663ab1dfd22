(** C05-C08: integers and formulas. *)
From Coq Require Import Lia.
From Verif Require Import Py PyFacts Utils State Assembler SpecParse ParseFacts.
Local Open Scope Z_scope.

(** Prefixes of the 6502 (cpu/mos6502.py:46-50), for the examples. *)
Definition ex_pcfg : pcfg :=
  PCfg [#"$"] [] [#"%"] [] [#"@"] [] [] [] false 0 false.
(** Suffix notations of the 8086 (cpu/intel8086.py:599-609). *)
Definition ex_pcfg86 : pcfg :=
  PCfg [#"0x"; #"0h"; #"$0"] [#"h"] [#"0b"; #"0y"] [#"b"; #"y"] [#"0o"; #"0q"] [#"o"; #"q"]
       [#"0d"] [#"d"] false 0 false.

(** C05 *)
Theorem C05_parsed_integers_fit : forall p lbls token n signed v, 1 <= n ->
  parse_integer p lbls token n signed = Ok (Some v) ->
  (signed = false -> 0 <= v < 2 ^ n) /\
  (signed = true -> - 2 ^ (n - 1) <= v < 2 ^ (n - 1) \/
     (0 <= v < 2 ^ n /\ exists a s b, token = a ++ s ++ b /\ nondecimal p s)).
Proof. exact parse_integer_range. Qed.
Print Assumptions C05_parsed_integers_fit.

Example C05_example :
  parse_integer ex_pcfg [] #"$ff" 8 true = Ok (Some 255) /\
  parse_integer ex_pcfg [] #"-128" 8 true = Ok (Some (-128)) /\
  parse_integer ex_pcfg [] #"-128" 8 false = Ok (Some 128) /\
  parse_integer ex_pcfg [] #"255+1" 8 false = Err (AExc (NotInBitRange 256 8 None)) /\
  parse_integer ex_pcfg [] #"128" 8 true = Err (AExc (NotInBitRange 128 8 None)).
Proof. repeat split; vm_compute; reflexivity. Qed.

(** C06 *)
Theorem C06_literals_round_trip : forall p lbls s v dec n signed, 1 <= n ->
  markers_ok p -> literal p s v dec ->
  (forall c, s = [quote_chr; c; quote_chr] -> ~ In c op_chars) ->
  (forall w, accepts n signed dec v w -> parse_integer p lbls s n signed = Ok (Some w)) /\
  ((forall w, ~ accepts n signed dec v w) ->
   exists x, parse_integer p lbls s n signed = Err (AExc (NotInBitRange x n None))).
Proof. exact literal_roundtrip. Qed.
Print Assumptions C06_literals_round_trip.

Lemma ex_numeral : numeral 16 #"1aF" 0x1af.
Proof.
  apply (num_more 16 #"1a" 0x1a "F" 15); [|split; [lia|right; reflexivity]|lia].
  apply (num_more 16 #"1" 1 "a" 10); [|split; [lia|left; reflexivity]|lia].
  apply num_one; [split; [lia|left; reflexivity]|lia].
Qed.

Lemma ex_markers : markers_ok ex_pcfg.
Proof.
  split; [|constructor].
  repeat constructor; cbn; try (injection H as <- <-; discriminate);
    intros I; repeat (destruct I as [I|I]; [discriminate|]); auto.
Qed.

Example C06_example :
  literal ex_pcfg #"$1aF" 0x1af false /\ markers_ok ex_pcfg /\
  accepts 16 false false 0x1af 0x1af /\ (forall w, ~ accepts 8 false false 0x1af w) /\
  parse_integer ex_pcfg [] #"$1aF" 16 false = Ok (Some 0x1af) /\
  parse_integer ex_pcfg [] #"$1aF" 8 false = Err (AExc (NotInBitRange 0x1af 8 None)) /\
  parse_integer ex_pcfg86 [] #"12h" 8 false = Ok (Some 0x12) /\
  parse_integer ex_pcfg86 [] #"101b" 8 false = Ok (Some 5).
Proof.
  split; [|split; [exact ex_markers|split; [|split; [|repeat split; vm_compute; reflexivity]]]].
  - apply (lit_prefix ex_pcfg [] #"$" 16 false [(#"%", (2, false)); (#"@", (8, false))] #"1aF").
    + reflexivity.
    + exact ex_numeral.
    + intros t E. discriminate.
    + constructor.
  - cbn. lia.
  - intros w [H _]. cbn in H. lia.
Qed.

(** The character literal of an operator is not readable: the operator inside
    the quotes is taken for a formula. *)
Theorem C06_operator_character_refuted : exists c,
  literal ex_pcfg [quote_chr; c; quote_chr] (ord c) false /\
  parse_integer ex_pcfg [] [quote_chr; c; quote_chr] 8 false = Err (PExc IndexError).
Proof. exists "+"%char. split; [apply lit_char|vm_compute; reflexivity]. Qed.
Print Assumptions C06_operator_character_refuted.

(** C07: the value of a formula over a literal. *)
Theorem C07_formula_left_to_right : forall p lbls sel s v dec ch w n signed r, 1 <= n ->
  selector sel -> no_select s -> no_ops s -> literal p s v dec -> chain_ok ch ->
  chain_result p lbls ch (select sel v) w -> accepts n signed dec w r ->
  parse_integer p lbls (sel ++ s ++ show_chain ch) n signed = Ok (Some r).
Proof.
  intros. rewrite (parse_formula p lbls sel s v dec ch w) by auto.
  apply check_integer_accepts in H6; [rewrite H6; reflexivity|auto].
Qed.
Print Assumptions C07_formula_left_to_right.

(** C07: the value of a formula over a label, relative to a start address (0
    for an absolute reference). *)
Theorem C07_label_formula_left_to_right : forall p lbls sel s a start ch w,
  selector sel -> no_select s -> no_ops s -> s <> [] -> chain_ok ch ->
  address_of lbls s a -> chain_result p lbls ch (select sel (a - start)) w ->
  label_relative p lbls (sel ++ s ++ show_chain ch) start = Ok (Some w) /\
  (start = 0 -> label_absolute p lbls (sel ++ s ++ show_chain ch) = Ok (Some w)).
Proof.
  intros p lbls sel s a start ch w F N O NE C (l & L & ->) R.
  assert (label_relative p lbls (sel ++ s ++ show_chain ch) start = Ok (Some w))
    by (apply (label_formula p lbls sel s l); auto).
  split; auto. intros ->. exact H.
Qed.
Print Assumptions C07_label_formula_left_to_right.

(** C07: an unknown name in the chain. *)
Theorem C07_unknown_name : forall p lbls sel s v dec c1 op sel' name c2 w n signed,
  selector sel -> no_select s -> no_ops s -> literal p s v dec ->
  chain_ok (c1 ++ (op, sel' ++ name) :: c2) -> chain_result p lbls c1 (select sel v) w ->
  selector sel' -> no_select name -> no_ops name -> name <> [] ->
  parse_integer p lbls name 64 false = Ok None -> dget str_eqb lbls name = None ->
  parse_integer p lbls (sel ++ s ++ show_chain (c1 ++ (op, sel' ++ name) :: c2)) n signed
  = Err (AExc (UnknownLabel (sel' ++ name))).
Proof.
  intros. rewrite (parse_chain_eq p lbls sel s v dec) by auto.
  rewrite (ops_loop_unknown p lbls 7 c1 op sel' name c2 _ w) by auto. reflexivity.
Qed.
Print Assumptions C07_unknown_name.

(** C07: division by zero is not turned into an AssemblerException. *)
Theorem C07_division_by_zero : forall p lbls sel s v dec c1 arg c2 w n signed,
  selector sel -> no_select s -> no_ops s -> literal p s v dec ->
  chain_ok (c1 ++ ("/"%char, arg) :: c2) -> chain_result p lbls c1 (select sel v) w ->
  arg_denotes p lbls arg 0 ->
  parse_integer p lbls (sel ++ s ++ show_chain (c1 ++ ("/"%char, arg) :: c2)) n signed
  = Err (PExc ZeroDivisionError).
Proof.
  intros. rewrite (parse_chain_eq p lbls sel s v dec) by auto.
  rewrite (formula_div0 p lbls 7 c1 arg c2 _ w) by auto. reflexivity.
Qed.
Print Assumptions C07_division_by_zero.

Definition ex_labels : list (str * label) := [(#"foo", MkLabel 0x34 0x1200 None)].

Lemma ex_dec : forall c d, digit d c -> d < 10 ->
  no_prefix (prefix_notations ex_pcfg) [c] -> literal ex_pcfg [c] d true.
Proof. intros. apply lit_dec; auto; [apply num_one; auto|constructor]. Qed.

(** 2+3*4 is 20, and a chain over labels: <foo+foo/2. *)
Example C07_example :
  chain_ok [("+"%char, #"3"); ("*"%char, #"4")] /\
  chain_result ex_pcfg ex_labels [("+"%char, #"3"); ("*"%char, #"4")] 2 20 /\
  parse_integer ex_pcfg ex_labels #"2+3*4" 8 false = Ok (Some 20) /\
  chain_result ex_pcfg ex_labels [("+"%char, #"foo")] 0x34 (0x34 + 0x1234) /\
  label_absolute ex_pcfg ex_labels #"<foo+foo" = Ok (Some (0x34 + 0x1234)) /\
  parse_integer ex_pcfg ex_labels #"1+bar" 8 false = Err (AExc (UnknownLabel #"bar")) /\
  parse_integer ex_pcfg ex_labels #"1/0" 8 false = Err (PExc ZeroDivisionError) /\
  select #"<" 0x1234 = 0x34 /\ select #">" 0x1234 = 0x12 /\ select #"<<" 0x123456 = 0x3456 /\
  select #"><" 0x123456 = 0x34.
Proof.
  assert (NP : forall c, In c #"34" -> no_prefix (prefix_notations ex_pcfg) [c]).
  { intros c H. cbn in H. destruct H as [<-|[<-|[]]]; repeat constructor; intros [t E]; discriminate. }
  assert (A : forall c d, digit d c -> 0 <= d < 10 -> no_prefix (prefix_notations ex_pcfg) [c] ->
              c <> "<"%char -> c <> ">"%char -> ~ In c op_chars ->
              arg_denotes ex_pcfg ex_labels [c] d).
  { intros c d D L N N1 N2 O.
    assert (S : select [] d = d)
      by (unfold select; cbn [existsb length]; rewrite Z.pow_0_r, Z.div_1_r; reflexivity).
    rewrite <- S at 1. apply (arg_literal ex_pcfg ex_labels [] [c] d true).
    - constructor.
    - intros x t E. injection E as <- _. auto.
    - constructor; auto.
    - apply ex_dec; auto. lia.
    - rewrite S. lia. }
  assert (NO : forall c, In c #"34foo" -> ~ In c op_chars).
  { intros c H I. cbn in H, I.
    repeat (destruct H as [<-|H]; [repeat (destruct I as [I|I]; [discriminate|]); auto|]). auto. }
  repeat split; try (vm_compute; reflexivity).
  - repeat constructor; cbn; auto; apply NO; cbn; auto.
  - apply chain_cons with 3 5.
    + apply A; try lia; try discriminate; [split; [lia|left; reflexivity]|apply NP; cbn; auto|apply NO; cbn; auto].
    + apply op_add.
    + apply chain_cons with 4 20; [|apply (op_mul 5 4)|constructor].
      apply A; try lia; try discriminate; [split; [lia|left; reflexivity]|apply NP; cbn; auto|apply NO; cbn; auto].
  - apply chain_cons with (select [] 0x1234) (0x34 + 0x1234).
    + apply (arg_label ex_pcfg ex_labels [] #"foo").
      * constructor.
      * intros x t E. injection E as <- _. split; discriminate.
      * repeat constructor; apply NO; cbn; auto.
      * vm_compute. reflexivity.
      * eexists. split; [reflexivity|reflexivity].
    + apply (op_add 0x34 0x1234).
    + constructor.
Qed.

(** A chain over a negative literal is not a formula at all: the token is taken
    for a label reference. *)
Theorem C07_negative_head_refuted : exists s ch v w,
  literal ex_pcfg s v true /\ chain_ok ch /\ chain_result ex_pcfg [] ch v w /\
  accepts 8 true true w w /\
  parse_integer ex_pcfg [] (s ++ show_chain ch) 8 true = Ok None.
Proof.
  exists #"-5", [("+"%char, [])], (-5), (-4). repeat split; try lia; try (vm_compute; reflexivity).
  - apply (lit_neg ex_pcfg #"5" 5).
    + apply num_one; [split; [lia|left; reflexivity]|lia].
    + repeat constructor; intros [t E]; discriminate.
    + constructor.
  - repeat constructor.
  - apply chain_cons with 1 (-4); [constructor|apply (op_add (-5) 1)|constructor].
Qed.
Print Assumptions C07_negative_head_refuted.

(** C08: one level of nesting is enough; fuel never runs out. *)
Theorem C08_termination : forall p lbls token n signed start f, (1 <= f)%nat ->
  parse_integer_with p (apply_math_formula p lbls f) token n signed
    = parse_integer p lbls token n signed /\
  label_by_name_with lbls (apply_math_formula p lbls f) token start
    = label_relative p lbls token start /\
  parse_integer p lbls token n signed <> Err (PExc RecursionError) /\
  label_relative p lbls token start <> Err (PExc RecursionError).
Proof.
  intros. split; [apply parse_fuel; auto|]. split; [apply label_fuel; auto|].
  split; [apply no_rec_parse|apply no_rec_label].
Qed.
Print Assumptions C08_termination.

Theorem C08_only_addresses_matter : forall p l1 l2 token n signed start,
  same_addresses l1 l2 ->
  parse_integer p l1 token n signed = parse_integer p l2 token n signed /\
  label_relative p l1 token start = label_relative p l2 token start.
Proof. intros. split; [apply parse_addresses; auto|apply label_addresses; auto]. Qed.
Print Assumptions C08_only_addresses_matter.

Example C08_example :
  same_addresses ex_labels [(#"foo", MkLabel 0x1234 0 (Some #"text"))] /\
  parse_integer ex_pcfg ex_labels #"1+<foo*foo-$f|2&foo" 64 false = Ok (Some 52).
Proof.
  split; [|vm_compute; reflexivity].
  intros name. cbn [dget ex_labels]. destruct (str_eqb name #"foo"); [reflexivity|exact I].
Qed.
