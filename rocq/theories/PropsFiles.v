(** C74 included data, C75 strings and decimal text, C76 defines. *)
From Coq Require Import Lia.
From Verif Require Import Py PyFacts Utils Tokenizer State Assembler SpecUtils UtilsFacts SpecTok SpecSubst SubstFacts SpecParse ParseFacts
  SpecExec SpecLink SpecFiles Events ExecFacts DigitFacts Demo PropsUtils PropsParse PropsExec PropsData TileFacts.
Local Open Scope Z_scope.

(** ** C74 *)

Lemma emit_eq : forall b s, append_assembled_bytes b s =
  (set_counter (set_assembled s (assembled s ++ b)) (org_counter s + zlen b), Ok tt).
Proof. reflexivity. Qed.

(** .incbin emits exactly the bytes of the file. *)
Theorem C74_incbin : forall c fuel asm t0 op op' name l s b, names c t0 D_incbin ->
  reads s [op] [op'] -> string_operand op' name -> file_bytes (c_env c) name = Some b ->
  exists s', statement_assemble c fuel asm (Stmt KDirective [t0; op] l) s = (s', Ok tt) /\ emitted s b s'.
Proof.
  intros c fuel asm t0 op op' name l s b N R SO FB. eexists. split; [|reflexivity].
  rewrite (directive_run _ _ _ _ _ _ _ s _ N R). cbn [run_directive]. unfold directive_incbin.
  change (negb (len_in [t0; op'] [2]%nat)) with false. cbv iota. unfold bind, tok_at, lift, ret. cbn [nth_error].
  rewrite (stringify_operand _ _ SO). unfold open_file. rewrite FB. apply emit_eq.
Qed.
Print Assumptions C74_incbin.

Definition csv_pack (w : nat) (v : Z) : res bytes := if Nat.eqb w 1 then byte_blob v else pack_le16u [Some v].

Lemma table_run : forall c fuel asm t0 d w op op' name l s rows, names c t0 d -> table_width d w ->
  reads s [op] [op'] -> string_operand op' name -> file_csv (c_env c) name = Some rows ->
  statement_assemble c fuel asm (Stmt KDirective [t0; op] l) s =
  (let! blob := csv_blob (c_p c) (8 * Z.of_nat w) (csv_pack w) (concat rows) [] in append_assembled_bytes blob) s.
Proof.
  intros c fuel asm t0 d w op op' name l s rows N TW R SO FC.
  rewrite (directive_run _ _ _ _ _ _ _ s _ N R).
  assert (E : run_directive c asm d [t0; op'] = directive_inccsv (c_env c) (c_p c) (8 * Z.of_nat w) (csv_pack w) [t0; op'])
    by (destruct TW; reflexivity).
  rewrite E. unfold directive_inccsv.
  change (negb (len_in [t0; op'] [2]%nat)) with false. cbv iota. unfold tok_at. cbn [nth_error].
  unfold bind at 1, ret at 1. unfold bind at 1, lift at 1. rewrite (stringify_operand _ _ SO). unfold bind at 1, open_file. rewrite FC. reflexivity.
Qed.

Lemma csv_pack_ok : forall d w v, table_width d w -> 0 <= v < 2 ^ (8 * Z.of_nat w) ->
  exists b, csv_pack w v = Ok b /\ length b = w /\ read_value false b = v.
Proof.
  intros d w v [] V; unfold csv_pack; cbn [Nat.eqb].
  - exists [v]. change (2 ^ (8 * Z.of_nat 1)) with 256 in V. unfold byte_blob, fill_blob.
    replace (1 <=? 0) with false by reflexivity.
    replace ((0 <=? v) && (v <? 256)) with true by (symmetry; apply andb_true_iff; split; [apply Z.leb_le|apply Z.ltb_lt]; lia).
    split; [reflexivity|]. split; [reflexivity|]. unfold read_value. cbn [le_value]. lia.
  - destruct C01_unsigned_packing as (_ & P & _). apply (pack_one _ _ _ _ P V).
Qed.

Lemma csv_blob_ok : forall c d w cols vs s acc, table_width d w ->
  Forall2 (fun t v => number c s t (8 * Z.of_nat w) v) cols vs ->
  exists b, csv_blob (c_p c) (8 * Z.of_nat w) (csv_pack w) cols acc s = (s, Ok (acc ++ b)) /\
    zlen b = Z.of_nat w * zlen vs /\ read_fields false w (length vs) b = vs.
Proof.
  intros c d w cols vs s acc TW F. revert acc. induction F as [|t v cols vs N F IH]; intros acc.
  - exists []. rewrite app_nil_r. split; [reflexivity|]. split; [unfold zlen; cbn; lia|reflexivity].
  - assert (W1 : (1 <= w)%nat) by (destruct TW; lia).
    destruct (csv_pack_ok d w v TW) as (b1 & E1 & L1 & R1).
    { unfold number in N. apply C05_parsed_integers_fit in N; [|lia]. apply N. reflexivity. }
    destruct (IH (acc ++ b1)) as (b & E & L & R). exists (b1 ++ b).
    cbn [csv_blob]. unfold bind at 1, m_parse_integer. unfold number in N. rewrite N. unfold bind at 1, lift. rewrite E1, E, <- app_assoc.
    split; [reflexivity|]. split.
    + rewrite zlen_app, L, zlen_cons. unfold zlen. rewrite L1. lia.
    + cbn [length read_fields]. rewrite <- L1 at 1 3. rewrite firstn_app, skipn_app, firstn_all, skipn_all, Nat.sub_diag. cbn [firstn skipn app].
      rewrite app_nil_r. f_equal; auto.
Qed.

(** .inccsv and .inccsv_le16 emit the values of the cells, row by row, as bytes or as
    little-endian words. *)
Theorem C74_table : forall c fuel asm t0 d w op op' name l s rows vs, names c t0 d -> table_width d w ->
  reads s [op] [op'] -> string_operand op' name -> file_csv (c_env c) name = Some rows ->
  Forall2 (fun t v => number c s t (8 * Z.of_nat w) v) (concat rows) vs ->
  exists b s', statement_assemble c fuel asm (Stmt KDirective [t0; op] l) s = (s', Ok tt) /\ emitted s b s' /\
    zlen b = Z.of_nat w * zlen vs /\ read_fields false w (length vs) b = vs.
Proof.
  intros c fuel asm t0 d w op op' name l s rows vs N TW R SO FC F.
  destruct (csv_blob_ok c d w _ _ s [] TW F) as (b & E & L & RF). exists b. eexists.
  rewrite (table_run _ _ _ _ _ _ _ _ _ _ _ _ N TW R SO FC). unfold bind at 1. rewrite E. split; [apply emit_eq|].
  split; [reflexivity|auto].
Qed.
Print Assumptions C74_table.

(** The first cell that is not a number stops the directive: nothing is emitted. *)
Theorem C74_table_rejected : forall c fuel asm t0 d w op op' name l s rows good vs bad rest, names c t0 d -> table_width d w ->
  reads s [op] [op'] -> string_operand op' name -> file_csv (c_env c) name = Some rows ->
  concat rows = good ++ bad :: rest -> Forall2 (fun t v => number c s t (8 * Z.of_nat w) v) good vs ->
  let run := statement_assemble c fuel asm (Stmt KDirective [t0; op] l) s in
  (parse_integer (c_p c) (labels s) bad (8 * Z.of_nat w) false = Ok None -> run = (s, Err (AExc LabelNotAllowed))) /\
  (forall e, parse_integer (c_p c) (labels s) bad (8 * Z.of_nat w) false = Err e -> run = (s, Err e)).
Proof.
  intros c fuel asm t0 d w op op' name l s rows good vs bad rest N TW R SO FC RE F run.
  assert (G : forall r, (forall acc, csv_blob (c_p c) (8 * Z.of_nat w) (csv_pack w) (bad :: rest) acc s = (s, Err r)) -> run = (s, Err r)).
  { intros r B. unfold run. rewrite (table_run _ _ _ _ _ _ _ _ _ _ _ _ N TW R SO FC), RE. unfold bind at 1.
    assert (Q : forall acc, csv_blob (c_p c) (8 * Z.of_nat w) (csv_pack w) (good ++ bad :: rest) acc s = (s, Err r)).
    { clear - F TW B. induction F as [|t v good vs N F IH]; intros acc; [apply B|].
      destruct (csv_pack_ok d w v TW) as (b1 & E1 & _ & _).
      { unfold number in N. apply C05_parsed_integers_fit in N; [apply N; reflexivity|destruct TW; lia]. }
      cbn [app csv_blob]. unfold bind at 1, m_parse_integer. unfold number in N. rewrite N. unfold bind at 1, lift. rewrite E1. apply IH. }
    rewrite Q. reflexivity. }
  split.
  - intros E. apply G. intros acc. cbn [csv_blob]. unfold bind at 1, m_parse_integer. rewrite E. reflexivity.
  - intros e E. apply G. intros acc. cbn [csv_blob]. unfold bind at 1, m_parse_integer. rewrite E. reflexivity.
Qed.
Print Assumptions C74_table_rejected.

Lemma split_dotted : forall ks t, dotted ks t -> forall acc, split_dot acc t =
  match ks with k :: r => (acc ++ k) :: r | [] => [acc] end.
Proof.
  assert (K : forall k acc, ~ In "."%char k -> split_dot acc k = [acc ++ k]).
  { induction k as [|x k IH]; intros acc NI; cbn [split_dot]; [rewrite app_nil_r; reflexivity|].
    replace (Ascii.eqb x ".") with false by (symmetry; apply Ascii.eqb_neq; intros ->; apply NI; left; reflexivity).
    rewrite IH by (intros I; apply NI; right; exact I). rewrite <- app_assoc. reflexivity. }
  assert (K2 : forall k acc t, ~ In "."%char k -> split_dot acc (k ++ "."%char :: t) = (acc ++ k) :: split_dot [] t).
  { induction k as [|x k IH]; intros acc t NI; cbn [app split_dot]; [rewrite app_nil_r; reflexivity|].
    replace (Ascii.eqb x ".") with false by (symmetry; apply Ascii.eqb_neq; intros ->; apply NI; left; reflexivity).
    rewrite IH by (intros I; apply NI; right; exact I). rewrite <- app_assoc. reflexivity. }
  induction 1 as [k NI|k ks t NI D IH]; intros acc; [apply K; auto|]. rewrite K2 by auto. f_equal. rewrite IH. destruct ks; [inversion D|reflexivity].
Qed.
Lemma reached_path : forall j ks j', reached_by j ks j' -> json_path j ks = Ok j'.
Proof. induction 1 as [j|d k ks j j' E R IH]; cbn [json_path]; [destruct j; reflexivity|]. rewrite E. exact IH. Qed.

Lemma json_run : forall c fuel asm t0 op1 op2 op1' op2' name keys key l s doc j, names c t0 D_incjson ->
  reads s [op1; op2] [op1'; op2'] -> string_operand op1' name -> string_operand op2' key -> dotted keys key ->
  file_json (c_env c) name = Some doc -> reached_by doc keys j ->
  statement_assemble c fuel asm (Stmt KDirective [t0; op1; op2] l) s =
  (let! items := lift (json_items j) in let! blob := json_blob (c_p c) items [] in append_assembled_bytes blob) s.
Proof.
  intros c fuel asm t0 op1 op2 op1' op2' name keys key l s doc j N R S1 S2 D FJ RB.
  rewrite (directive_run _ _ _ _ _ _ _ s _ N R). cbn [run_directive]. unfold directive_incjson.
  change (negb (len_in [t0; op1'; op2'] [3]%nat)) with false. cbv iota. unfold tok_at. cbn [nth_error].
  unfold bind at 1, ret at 1. unfold bind at 1, lift at 1. rewrite (stringify_operand _ _ S1).
  unfold bind at 1, ret at 1. unfold bind at 1, lift at 1. rewrite (stringify_operand _ _ S2).
  unfold bind at 1, open_file. rewrite FJ. unfold ret. unfold bind at 1, lift at 1.
  assert (KE : split_dot [] key = keys) by (rewrite (split_dotted _ _ D); destruct keys; [inversion D|reflexivity]).
  rewrite KE, (reached_path _ _ _ RB). reflexivity.
Qed.

Lemma element_step : forall c s item v rest acc, element c s item v -> 0 <= v < 256 ->
  json_blob (c_p c) (item :: rest) acc s = json_blob (c_p c) rest (acc ++ [v]) s.
Proof.
  intros c s item v rest acc E V.
  assert (B : byte_blob v = Ok [v]).
  { unfold byte_blob, fill_blob. replace (1 <=? 0) with false by reflexivity.
    replace ((0 <=? v) && (v <? 256)) with true by (symmetry; apply andb_true_iff; split; [apply Z.leb_le|apply Z.ltb_lt]; lia). reflexivity. }
  destruct E as [n| | |t v N]; cbn [json_blob]; try (unfold bind at 1, ret at 1; unfold bind at 1, lift; rewrite B; reflexivity).
  unfold bind at 1 2, m_parse_integer. unfold number in N. rewrite N. unfold ret at 1. unfold bind at 1, lift. rewrite B. reflexivity.
Qed.

(** .incjson emits one byte for each element of the list reached through the keys. *)
Theorem C74_json : forall c fuel asm t0 op1 op2 op1' op2' name keys key l s doc items vs, names c t0 D_incjson ->
  reads s [op1; op2] [op1'; op2'] -> string_operand op1' name -> string_operand op2' key -> dotted keys key ->
  file_json (c_env c) name = Some doc -> reached_by doc keys (JList items) ->
  Forall2 (fun x v => element c s x v /\ 0 <= v < 256) items vs ->
  exists s', statement_assemble c fuel asm (Stmt KDirective [t0; op1; op2] l) s = (s', Ok tt) /\ emitted s vs s'.
Proof.
  intros c fuel asm t0 op1 op2 op1' op2' name keys key l s doc items vs N R S1 S2 D FJ RB F. eexists. split; [|reflexivity].
  rewrite (json_run _ _ _ _ _ _ _ _ _ _ _ _ _ _ _ N R S1 S2 D FJ RB). cbn [json_items]. unfold bind at 1, lift at 1.
  assert (Q : forall acc, json_blob (c_p c) items acc s = (s, Ok (acc ++ vs))).
  { clear - F. induction F as [|x v items vs [E V] F IH]; intros acc; [rewrite app_nil_r; reflexivity|].
    rewrite (element_step _ _ _ _ _ _ E V), IH, <- app_assoc. reflexivity. }
  unfold bind at 1. rewrite Q. apply emit_eq.
Qed.
Print Assumptions C74_json.

(** An element that is no byte stops the directive: nothing is emitted. *)
Theorem C74_json_rejected : forall c fuel asm t0 op1 op2 op1' op2' name keys key l s doc good vs bad rest, names c t0 D_incjson ->
  reads s [op1; op2] [op1'; op2'] -> string_operand op1' name -> string_operand op2' key -> dotted keys key ->
  file_json (c_env c) name = Some doc -> reached_by doc keys (JList (good ++ bad :: rest)) ->
  Forall2 (fun x v => element c s x v /\ 0 <= v < 256) good vs ->
  (forall v, element c s bad v -> ~ 0 <= v < 256) ->
  exists e, statement_assemble c fuel asm (Stmt KDirective [t0; op1; op2] l) s = (s, Err e).
Proof.
  intros c fuel asm t0 op1 op2 op1' op2' name keys key l s doc good vs bad rest N R S1 S2 D FJ RB F NB.
  rewrite (json_run _ _ _ _ _ _ _ _ _ _ _ _ _ _ _ N R S1 S2 D FJ RB). cbn [json_items]. unfold bind at 1, lift at 1.
  assert (BB : forall v, element c s bad v -> byte_blob v = Err (PExc ValueError)).
  { intros v E. specialize (NB v E). unfold byte_blob, fill_blob. replace (1 <=? 0) with false by reflexivity.
    destruct ((0 <=? v) && (v <? 256)) eqn:X; [|reflexivity]. apply andb_true_iff in X. destruct X as [X1 X2].
    apply Z.leb_le in X1. apply Z.ltb_lt in X2. lia. }
  assert (B : exists e, forall acc, json_blob (c_p c) (bad :: rest) acc s = (s, Err e)).
  { destruct bad as [|b|n| |t|x|x]; cbn [json_blob]; try (eexists; intros acc; unfold bind at 1; reflexivity).
    - exists (PExc ValueError). intros acc. unfold bind at 1, ret at 1. unfold bind at 1, lift. rewrite BB; [reflexivity|]. destruct b; constructor.
    - exists (PExc ValueError). intros acc. unfold bind at 1, ret at 1. unfold bind at 1, lift. rewrite BB; [reflexivity|constructor].
    - destruct (parse_integer (c_p c) (labels s) t 8 false) as [[v|]|e] eqn:P.
      + exists (PExc ValueError). intros acc. unfold bind at 1 2, m_parse_integer. rewrite P. unfold ret at 1. unfold bind at 1, lift. rewrite BB; [reflexivity|]. constructor. exact P.
      + exists (AExc LabelNotAllowed). intros acc. unfold bind at 1 2, m_parse_integer. rewrite P. reflexivity.
      + exists e. intros acc. unfold bind at 1 2, m_parse_integer. rewrite P. reflexivity. }
  destruct B as [e B]. exists e. unfold bind at 1.
  assert (Q : forall acc, json_blob (c_p c) (good ++ bad :: rest) acc s = (s, Err e)).
  { clear - F B. induction F as [|x v good vs [E V] F IH]; intros acc; [apply B|]. cbn [app]. rewrite (element_step _ _ _ _ _ _ E V). apply IH. }
  rewrite Q. reflexivity.
Qed.
Print Assumptions C74_json_rejected.

(** Keys that lead nowhere, or to something that cannot be iterated, stop the directive. *)
Theorem C74_json_key : forall c fuel asm t0 op1 op2 op1' op2' name keys key l s doc, names c t0 D_incjson ->
  reads s [op1; op2] [op1'; op2'] -> string_operand op1' name -> string_operand op2' key -> dotted keys key ->
  file_json (c_env c) name = Some doc ->
  (forall j, reached_by doc keys j -> j = JNull \/ j = JFloat \/ (exists n, j = JInt n) \/ (exists b, j = JBool b)) ->
  exists e, statement_assemble c fuel asm (Stmt KDirective [t0; op1; op2] l) s = (s, Err e).
Proof.
  intros c fuel asm t0 op1 op2 op1' op2' name keys key l s doc N R S1 S2 D FJ NR.
  destruct (json_path doc keys) as [j|e] eqn:P.
  - assert (RB : reached_by doc keys j).
    { clear - P. revert doc P. induction keys as [|k ks IH]; intros doc P; cbn [json_path] in P; [injection P as <-; constructor|].
      destruct doc; try discriminate. destruct (dget str_eqb d k) eqn:E; [|discriminate]. econstructor; eauto. }
    rewrite (json_run _ _ _ _ _ _ _ _ _ _ _ _ _ _ _ N R S1 S2 D FJ RB). unfold bind at 1, lift at 1.
    destruct (NR j RB) as [->|[->|[[n ->]|[b ->]]]]; cbn [json_items]; eexists; reflexivity.
  - exists e. rewrite (directive_run _ _ _ _ _ _ _ s _ N R). cbn [run_directive]. unfold directive_incjson.
    change (negb (len_in [t0; op1'; op2'] [3]%nat)) with false. cbv iota. unfold tok_at. cbn [nth_error].
    unfold bind at 1, ret at 1. unfold bind at 1, lift at 1. rewrite (stringify_operand _ _ S1).
    unfold bind at 1, ret at 1. unfold bind at 1, lift at 1. rewrite (stringify_operand _ _ S2).
    unfold bind at 1, open_file. rewrite FJ. unfold ret. unfold bind at 1, lift at 1.
    assert (KE : split_dot [] key = keys) by (rewrite (split_dotted _ _ D); destruct keys; [inversion D|reflexivity]).
    rewrite KE, P. reflexivity.
Qed.
Print Assumptions C74_json_key.

(** A file that cannot be opened: the raw error of the host, and nothing emitted. *)
Theorem C74_missing : forall c fuel asm t0 d op op' more more' name l s, names c t0 d -> no_file c name d (S (length more)) ->
  reads s (op :: more) (op' :: more') -> string_operand op' name -> Forall (fun t => exists x, string_operand t x) more' ->
  statement_assemble c fuel asm (Stmt KDirective (t0 :: op :: more) l) s = (s, Err (PExc OSError)).
Proof.
  intros c fuel asm t0 d op op' more more' name l s N NF R SO SM.
  rewrite (directive_run _ _ _ _ _ _ _ s _ N R).
  assert (LM : length more' = length more) by (inversion R; subst; symmetry; eapply same_length; eauto).
  rewrite <- LM in NF. clear LM. inversion NF as [FB|d' w TW FC|FJ]; subst.
  - destruct more'; [|discriminate]. cbn [run_directive]. unfold directive_incbin.
    change (negb (len_in [t0; op'] [2]%nat)) with false. cbv iota. unfold bind, tok_at, lift, ret. cbn [nth_error].
    rewrite (stringify_operand _ _ SO). unfold open_file. rewrite FB. reflexivity.
  - destruct more'; [|discriminate].
    assert (E : run_directive c asm d [t0; op'] = directive_inccsv (c_env c) (c_p c) (8 * Z.of_nat w) (csv_pack w) [t0; op'])
      by (destruct TW; reflexivity).
    rewrite E. unfold directive_inccsv.
    change (negb (len_in [t0; op'] [2]%nat)) with false. cbv iota. unfold bind, tok_at, lift, ret. cbn [nth_error].
    rewrite (stringify_operand _ _ SO). unfold open_file. rewrite FC. reflexivity.
  - destruct more' as [|m [|]]; try discriminate. inversion SM as [|? ? [x SX] _]; subst. cbn [run_directive]. unfold directive_incjson.
    change (negb (len_in [t0; op'; m] [3]%nat)) with false. cbv iota. unfold bind, tok_at, lift, ret. cbn [nth_error].
    rewrite (stringify_operand _ _ SO), (stringify_operand _ _ SX). unfold open_file. rewrite FJ. reflexivity.
Qed.
Print Assumptions C74_missing.

(** ** C75 *)

Definition put (b : bytes) (s : st) : st := set_counter (set_assembled s (assembled s ++ b)) (org_counter s + zlen b).
Lemma put_put : forall a b s, put b (put a s) = put (a ++ b) s.
Proof.
  intros a b s.
  change (put b (put a s)) with (set_counter (set_assembled s ((assembled s ++ a) ++ b)) (org_counter s + zlen a + zlen b)).
  unfold put. rewrite zlen_app, app_assoc, Z.add_assoc. reflexivity.
Qed.
Lemma put_nil : forall s, put [] s = s.
Proof. intros s. unfold put. rewrite app_nil_r. change (zlen (@nil Z)) with 0. rewrite Z.add_0_r. destruct s. reflexivity. Qed.

Lemma iter_chunks : forall (f : str -> M unit) lbls (R : str -> bytes -> Prop),
  (forall t b s, labels s = lbls -> R t b -> f t s = (put b s, Ok tt)) ->
  forall ops bs s, labels s = lbls -> Forall2 R ops bs -> iter f ops s = (put (concat bs) s, Ok tt).
Proof.
  intros f lbls R H ops bs s L F. revert s L. induction F as [|t b ops bs X F IH]; intros s L; cbn [iter concat].
  - rewrite put_nil. reflexivity.
  - unfold bind at 1. rewrite (H t b s L X). rewrite IH by exact L. rewrite put_put. reflexivity.
Qed.
Lemma iter_chunks_fail : forall (f : str -> M unit) lbls (R : str -> bytes -> Prop) bad e,
  (forall t b s, labels s = lbls -> R t b -> f t s = (put b s, Ok tt)) ->
  (forall s, labels s = lbls -> f bad s = (s, Err e)) ->
  forall ops bs rest s, labels s = lbls -> Forall2 R ops bs -> iter f (ops ++ bad :: rest) s = (put (concat bs) s, Err e).
Proof.
  intros f lbls R bad e H B ops bs rest s L F. revert s L. induction F as [|t b ops bs X F IH]; intros s L; cbn [app iter concat].
  - unfold bind. rewrite B by exact L. rewrite put_nil. reflexivity.
  - unfold bind at 1. rewrite (H t b s L X). rewrite IH by exact L. rewrite put_put. reflexivity.
Qed.

Lemma ascii_ok : forall x, seven_bit x -> encode_ascii x = Ok (map ord x).
Proof.
  induction 1 as [|ch x B F IH]; [reflexivity|]. cbn [encode_ascii map]. replace (ord ch <? 128) with true by (symmetry; apply Z.ltb_lt; exact B).
  rewrite IH. reflexivity.
Qed.
Lemma ascii_bad : forall x, ~ seven_bit x -> encode_ascii x = Err (PExc UnicodeEncodeError).
Proof.
  induction x as [|ch x IH]; intros N; [exfalso; apply N; constructor|]. cbn [encode_ascii]. destruct (ord ch <? 128) eqn:E; [|reflexivity].
  rewrite IH; [reflexivity|]. intros F. apply N. constructor; [apply Z.ltb_lt; exact E|exact F].
Qed.
Lemma quoted_is : forall t x, quoted t x -> is_quoted t = Ok true /\ inner t = x.
Proof.
  intros t x [q u Q]. split; [|apply inner_quoted]. cbn [is_quoted].
  replace (Ascii.eqb q dquote || Ascii.eqb q squote) with true by (destruct Q as [-> | ->]; reflexivity). reflexivity.
Qed.
Lemma unquoted_is : forall t, unquoted t -> is_quoted t = Ok false.
Proof. intros t (y & r & -> & N1 & N2). cbn [is_quoted]. apply Ascii.eqb_neq in N1, N2. rewrite N1, N2. reflexivity. Qed.

Lemma db_step : forall c s0 t b s, labels s = labels s0 -> db_bytes c s0 t b -> data_run c D_db t s = (put b s, Ok tt).
Proof.
  intros c s0 t b s L [t' x Q SB|t' v U N].
  - destruct (quoted_is _ _ Q) as [E1 E2]. cbn [data_run]. unfold data_token. unfold bind at 1, lift at 1. rewrite E1, E2.
    unfold bind at 1, lift. rewrite (ascii_ok _ SB). reflexivity.
  - assert (V : 0 <= v < 2 ^ 8) by (clear L; unfold number in N; apply C05_parsed_integers_fit in N; [apply N; reflexivity|lia]).
    destruct (data_step c D_db 1 (Some v) dw_db V) as (b1 & LB & RV & H).
    unfold number in N. rewrite <- L in N. rewrite (H t' s U N).
    cbn [with_ref]. destruct b1 as [|y [|]]; try discriminate LB. replace y with v; [reflexivity|].
    unfold read_value in RV. cbn [item_value] in RV. destruct (big_endian (c_p c)); cbn [rev app le_value] in RV; lia.
Qed.

(** .db emits, operand by operand, the characters of strings and the numbers. *)
Theorem C75_db : forall c fuel asm t0 ops ops' l s bs, names c t0 D_db -> reads s ops ops' ->
  Forall2 (db_bytes c s) ops' bs ->
  exists s', statement_assemble c fuel asm (Stmt KDirective (t0 :: ops) l) s = (s', Ok tt) /\ emitted s (concat bs) s'.
Proof.
  intros c fuel asm t0 ops ops' l s bs N R F. eexists. split; [|reflexivity].
  rewrite (directive_run _ _ _ _ _ _ _ s _ N R), (data_dir c asm D_db 1 t0 ops' dw_db).
  apply (iter_chunks _ (labels s) (db_bytes c s)); auto. intros t b u L X. apply (db_step c s); auto.
Qed.
Print Assumptions C75_db.

(** A string with a character outside ASCII is rejected with a raw error after the operands
    before it. *)
Theorem C75_db_rejected : forall c fuel asm t0 ops good bad x rest l s bs, names c t0 D_db -> reads s ops (good ++ bad :: rest) ->
  Forall2 (db_bytes c s) good bs -> quoted bad x -> ~ seven_bit x ->
  exists s', statement_assemble c fuel asm (Stmt KDirective (t0 :: ops) l) s = (s', Err (PExc UnicodeEncodeError)) /\
    emitted s (concat bs) s'.
Proof.
  intros c fuel asm t0 ops good bad x rest l s bs N R F Q NS. eexists. split; [|reflexivity].
  rewrite (directive_run _ _ _ _ _ _ _ s _ N R), (data_dir c asm D_db 1 t0 _ dw_db).
  apply (iter_chunks_fail _ (labels s) (db_bytes c s)); auto.
  - intros t b u L X. apply (db_step c s); auto.
  - intros u _. destruct (quoted_is _ _ Q) as [E1 E2]. cbn [data_run]. unfold data_token. unfold bind at 1, lift at 1. rewrite E1, E2.
    unfold bind at 1, lift. rewrite (ascii_bad _ NS). reflexivity.
Qed.
Print Assumptions C75_db_rejected.

(** .dw and .dd emit strings as a byte-order mark and the characters, little-endian, as
    many bytes each as the directive has. *)
Theorem C75_wide : forall c fuel asm t0 d w op op' x l s, names c t0 d -> data_width d w -> (w > 1)%nat ->
  reads s [op] [op'] -> quoted op' x ->
  exists b s', statement_assemble c fuel asm (Stmt KDirective [t0; op] l) s = (s', Ok tt) /\ emitted s b s' /\
    zlen b = Z.of_nat w * (1 + zlen x) /\ read_fields false w (S (length x)) b = 65279 :: map ord x.
Proof.
  intros c fuel asm t0 d w op op' x l s N DW W R Q.
  assert (K : forall b, (forall u, data_run c d op' u = (put b u, Ok tt)) ->
    exists s', statement_assemble c fuel asm (Stmt KDirective [t0; op] l) s = (s', Ok tt) /\ emitted s b s').
  { intros b H. eexists. split; [|reflexivity]. rewrite (directive_run _ _ _ _ _ _ _ s _ N R), (data_dir c asm d w t0 _ DW).
    cbn [iter]. unfold bind. rewrite H. reflexivity. }
  destruct (quoted_is _ _ Q) as [E1 E2].
  destruct DW; [lia| |].
  - exists (encode_utf16 x). destruct (K (encode_utf16 x)) as (s' & A & B).
    { intros u. cbn [data_run]. unfold data_token. unfold bind at 1, lift at 1. rewrite E1, E2. reflexivity. }
    exists s'. split; [exact A|]. split; [exact B|]. unfold encode_utf16. clear. split.
    + rewrite !zlen_cons. replace (zlen (flat_map (fun c => [ord c; 0]) x)) with (2 * zlen x); [lia|].
      induction x as [|a x IH]; [reflexivity|]. cbn [flat_map app]. rewrite !zlen_cons, <- IH. lia.
    + cbn [read_fields firstn skipn]. f_equal. induction x as [|a x IH]; [reflexivity|]. cbn [length flat_map app read_fields firstn skipn map].
      f_equal; [unfold read_value; cbn [le_value]; lia|exact IH].
  - exists (encode_utf32 x). destruct (K (encode_utf32 x)) as (s' & A & B).
    { intros u. cbn [data_run]. unfold data_token. unfold bind at 1, lift at 1. rewrite E1, E2. reflexivity. }
    exists s'. split; [exact A|]. split; [exact B|]. unfold encode_utf32. clear. split.
    + rewrite !zlen_cons. replace (zlen (flat_map (fun c => [ord c; 0; 0; 0]) x)) with (4 * zlen x); [lia|].
      induction x as [|a x IH]; [reflexivity|]. cbn [flat_map app]. rewrite !zlen_cons, <- IH. lia.
    + cbn [read_fields firstn skipn]. f_equal. induction x as [|a x IH]; [reflexivity|]. cbn [length flat_map app read_fields firstn skipn map].
      f_equal; [unfold read_value; cbn [le_value]; lia|exact IH].
Qed.
Print Assumptions C75_wide.

Lemma decimal_bound : forall b, Forall ascii_digit b -> 0 <= decimal b < 10 ^ Z.of_nat (length b).
Proof.
  induction b as [|x b IH] using rev_ind; intros F; [cbn; lia|]. apply Forall_app in F. destruct F as [F1 F2]. inversion F2; subst.
  rewrite decimal_app, app_length, Nat2Z.inj_add. change (Z.of_nat (length [x])) with 1. rewrite Z.pow_add_r by lia.
  specialize (IH F1). unfold ascii_digit in H1. lia.
Qed.
Lemma decimal_zero : forall b, decimal (48 :: b) = decimal b.
Proof. reflexivity. Qed.
Lemma text_of_number : forall v, 0 <= v -> decimal_text v (map ord (str_of_int v)).
Proof.
  intros v V. unfold str_of_int. replace (v <? 0) with false by (symmetry; apply Z.ltb_ge; lia).
  destruct (nat_digits_spec v V) as (D1 & D2 & D3). unfold decimal_text. split; [exact D1|]. split; [exact D2|].
  assert (NE : map ord (nat_digits 10 v) <> []).
  { unfold nat_digits. intros E. apply map_eq_nil in E. cbn [digits_of] in E. destruct (v <? 10); [discriminate|].
    assert (G : forall f n acc, acc <> [] -> digits_of f 10 n acc <> []).
    { clear. induction f; intros n acc A; [exact A|]. cbn [digits_of]. destruct (n <? 10); [discriminate|]. apply IHf. discriminate. }
    eapply G; [|exact E]. discriminate. }
  split; [exact NE|]. intros H. set (b := map ord (nat_digits 10 v)) in *.
  assert (LB : length b = length (nat_digits 10 v)) by (unfold b; apply map_length). rewrite <- LB in D3. clear LB. clearbody b.
  destruct b as [|x b]; [congruence|]. cbn [hd] in H. subst x. rewrite decimal_zero in D2. f_equal.
  destruct b as [|y b]; [reflexivity|]. exfalso. inversion D1 as [|? ? _ F]; subst. pose proof (decimal_bound _ F) as B.
  specialize (D3 (length (y :: b))). cbn [length] in D3, B. specialize (D3 ltac:(lia) ltac:(lia)). lia.
Qed.

Definition to_ascii_run (c : cfg) (size : nat) (w : nat) (t : str) : M unit := to_ascii_token (c_p c) (Z.of_nat size) w (Nat.eqb size 2) t.
Lemma text_dir : forall c asm d size w z t0 ops s, text_width d size w z ->
  run_directive c asm d (t0 :: ops) s = (iter (to_ascii_run c size w) ops ;; append_assembled_bytes z) s.
Proof.
  intros c asm d size w z t0 ops s []; cbn [run_directive].
  - unfold directive_db_to_ascii, bind. cbn [skipn]. change (to_ascii_run c 1 3) with (to_ascii_token (c_p c) 1 3 false).
    destruct (iter _ ops s) as [s' [[]|e]]; [|reflexivity]. rewrite emit_eq. fold (put [] s'). rewrite put_nil. reflexivity.
  - reflexivity.
  - unfold directive_dw_to_ascii, bind. cbn [skipn]. change (to_ascii_run c 2 5) with (to_ascii_token (c_p c) 2 5 true).
    destruct (iter _ ops s) as [s' [[]|e]]; [|reflexivity]. rewrite emit_eq. fold (put [] s'). rewrite put_nil. reflexivity.
  - reflexivity.
Qed.

(** .db_to_ascii and .dw_to_ascii emit numbers in decimal without leading zeros, the
    variants with z a final NUL. *)
Theorem C75_digits : forall c fuel asm t0 d size w z ops ops' l s vs, names c t0 d -> text_width d size w z ->
  reads s ops ops' -> Forall2 (fun t v => unquoted t /\ number c s t (8 * Z.of_nat size) v) ops' vs ->
  exists bs s', statement_assemble c fuel asm (Stmt KDirective (t0 :: ops) l) s = (s', Ok tt) /\
    emitted s (concat bs ++ z) s' /\ Forall2 decimal_text vs bs.
Proof.
  intros c fuel asm t0 d size w z ops ops' l s vs N TW R F.
  assert (SZ : (1 <= size)%nat) by (destruct TW; lia).
  assert (P : Forall (fun v => 0 <= v) vs).
  { clear - F SZ. induction F as [|t v ops vs [_ X] F IH]; constructor; auto. unfold number in X.
    apply C05_parsed_integers_fit in X; [|lia]. apply X. reflexivity. }
  exists (map (fun v => map ord (str_of_int v)) vs). eexists. split; [|split].
  - rewrite (directive_run _ _ _ _ _ _ _ s _ N R), (text_dir c asm d size w z t0 ops' s TW). unfold bind at 1.
    rewrite (iter_chunks (to_ascii_run c size w) (labels s)
      (fun t b => exists v, unquoted t /\ number c s t (8 * Z.of_nat size) v /\ b = map ord (str_of_int v)) ) with (bs := map (fun v => map ord (str_of_int v)) vs).
    + rewrite emit_eq. fold (put z (put (concat (map (fun v => map ord (str_of_int v)) vs)) s)). rewrite put_put. reflexivity.
    + intros t b u L (v & U & X & ->). unfold to_ascii_run, to_ascii_token. unfold bind at 1, lift at 1. rewrite (unquoted_is _ U).
      unfold bind at 1, m_parse_integer. unfold number in X. rewrite L, X. reflexivity.
    + reflexivity.
    + clear - F. induction F as [|t v ops vs [U X] F IH]; constructor; auto. exists v. auto.
  - reflexivity.
  - clear - P. induction P; constructor; auto. apply text_of_number. auto.
Qed.
Print Assumptions C75_digits.

(** A name instead takes a fixed number of digits, which are written when linking. *)
Theorem C75_name : forall c fuel asm t0 d size w z op op' l s, names c t0 d -> text_width d size w z ->
  reads s [op] [op'] -> unquoted op' -> parse_integer (c_p c) (labels s) op' (8 * Z.of_nat size) false = Ok None ->
  exists r s', statement_assemble c fuel asm (Stmt KDirective [t0; op] l) s = (s', Ok tt) /\
    ld_label r = op' /\ ld_relative r = 0 /\ ld_hook r = Some (to_str_hook w) /\
    emitted (set_labels_addresses s (dset Z.eqb (labels_addresses s) (zlen (assembled s)) r)) (repeat 0 w ++ z) s'.
Proof.
  intros c fuel asm t0 d size w z op op' l s N TW R U X.
  exists (LabelData op' (Z.of_nat size) (8 * Z.of_nat size) 0 0 1 None None (Some (to_str_hook w))). eexists. split.
  - rewrite (directive_run _ _ _ _ _ _ _ s _ N R), (text_dir c asm d size w z t0 _ s TW). unfold bind at 1. cbn [iter].
    unfold bind at 1. unfold to_ascii_run, to_ascii_token. unfold bind at 1, lift at 1. rewrite (unquoted_is _ U).
    unfold bind at 1, m_parse_integer. rewrite X. unfold bind at 1, add_label_translation, modify. cbn [ld_offset]. rewrite Z.add_0_r.
    rewrite emit_eq. unfold ret. rewrite emit_eq. fold (put (repeat 0 w) (set_labels_addresses s (dset Z.eqb (labels_addresses s) (zlen (assembled s))
      (LabelData op' (Z.of_nat size) (8 * Z.of_nat size) 0 0 1 None None (Some (to_str_hook w)))))).
    match goal with |- (?A, _) = _ => match A with set_counter (set_assembled ?u _) _ => fold (put z u) end end. rewrite put_put. reflexivity.
  - split; [reflexivity|]. split; [reflexivity|]. split; [reflexivity|]. reflexivity.
Qed.
Print Assumptions C75_name.

(** ** C76 *)

(** .define maps the first operand to the second, both as they read at that point, for
    the statements that follow; nothing else changes. *)
Theorem C76_define : forall c fuel asm t0 op1 op2 k v l s, names c t0 D_define -> reads s [op1; op2] [k; v] ->
  exists ds, statement_assemble c fuel asm (Stmt KDirective [t0; op1; op2] l) s = (set_defines s ds, Ok tt) /\
    dget str_eqb ds k = Some v /\ (forall x, x <> k -> dget str_eqb ds x = dget str_eqb (defines s) x).
Proof.
  intros c fuel asm t0 op1 op2 k v l s N R. exists (dset str_eqb (defines s) k v). split.
  - rewrite (directive_run _ _ _ _ _ _ _ s _ N R). reflexivity.
  - rewrite ExecFacts.dget_dset, str_eqb_refl. split; [reflexivity|]. intros x X. rewrite ExecFacts.dget_dset.
    replace (str_eqb x k) with false; [reflexivity|]. symmetry. apply str_eqb_neq. exact X.
Qed.
Print Assumptions C76_define.

(** A define with another number of operands is rejected without effect. *)
Theorem C76_rejected : forall c fuel asm t0 ops l s, names c t0 D_define -> length ops <> 2%nat ->
  statement_assemble c fuel asm (Stmt KDirective (t0 :: ops) l) s = (s, Err (AExc InvalidArgumentsForDirective)).
Proof.
  intros c fuel asm t0 ops l s N L.
  rewrite (directive_run _ _ _ _ _ _ _ s _ N (reads_self s ops)). cbn [run_directive]. unfold directive_define.
  destruct ops as [|a [|b [|d ops]]]; try reflexivity. exfalso. apply L. reflexivity.
Qed.
Print Assumptions C76_rejected.

(** ** Examples *)

Definition data_env : env :=
  Env (fun _ => None)
      (fun n => if str_eqb n #"x.bin" then Some [1; 2; 255] else None)
      (fun n => if str_eqb n #"t.csv" then Some [[#"1"; #"$ff"]; []; [#"-1"]]
                else if str_eqb n #"bad.csv" then Some [[#"1"; #"two"]; [#"300"]] else None)
      (fun n => if str_eqb n #"m.json" then Some (JDict [(#"w", JInt 4); (#"map", JDict [(#"rows", JList [JInt 7; JBool true; JStr #"-1"]); (#"bad", JList [JInt 7; JInt (-1)])])]) else None)
      (fun _ => None).
Definition data_cfg (be : bool) : cfg := mk_cfg (PCfg [#"$"] [] [#"%"] [] [#"@"] [] [] [] false 0 be) data_env demo_ops [] [] [].
Definition data_after (be : bool) (l : list string) : bytes * res unit :=
  let '(s, r) := assemble (data_cfg be) 5 (lines l) (init_st []) in (assembled s, r).

Example C74_incbin_example : exists s',
  statement_assemble (data_cfg false) 5 (fun _ => ret tt) (Stmt KDirective [#".incbin"; dquote :: #"x.bin" ++ [dquote]] 1) (init_st []) = (s', Ok tt) /\
  emitted (init_st []) [1; 2; 255] s'.
Proof.
  apply (C74_incbin _ _ _ _ _ (dquote :: #"x.bin" ++ [dquote]) #"x.bin"); [reflexivity|exact (reads_self (init_st []) [_])| |reflexivity].
  apply so_quoted. left. reflexivity.
Qed.
Ltac cells := repeat (apply Forall2_cons; [vm_compute; reflexivity|]); apply Forall2_nil.
Example C74_table_example : exists b s',
  statement_assemble (data_cfg true) 5 (fun _ => ret tt) (Stmt KDirective [#".inccsv_le16"; #"t.csv"] 1) (init_st []) = (s', Ok tt) /\
  emitted (init_st []) b s' /\ zlen b = 2 * 3 /\ read_fields false 2 3 b = [1; 255; 65535].
Proof.
  apply (C74_table (data_cfg true) 5 (fun _ => ret tt) #".inccsv_le16" D_inccsv_le16 2 #"t.csv" #"t.csv" #"t.csv" 1 (init_st []) [[#"1"; #"$ff"]; []; [#"-1"]] [1; 255; 65535]);
    [reflexivity|constructor|exact (reads_self (init_st []) [_])|apply so_bare; discriminate|reflexivity|cells].
Qed.
Example C74_table_rejected_example :
  statement_assemble (data_cfg true) 5 (fun _ => ret tt) (Stmt KDirective [#".inccsv"; #"bad.csv"] 1) (init_st []) = (init_st [], Err (AExc LabelNotAllowed)).
Proof.
  refine (proj1 (C74_table_rejected (data_cfg true) 5 (fun _ => ret tt) #".inccsv" D_inccsv 1 #"bad.csv" #"bad.csv" #"bad.csv" 1 (init_st [])
    [[#"1"; #"two"]; [#"300"]] [#"1"] [1] #"two" [#"300"] eq_refl tw_byte _ _ eq_refl eq_refl _) _);
    [exact (reads_self (init_st []) [_])|apply so_bare; discriminate|cells|vm_compute; reflexivity].
Qed.
Example C74_json_example : exists s',
  statement_assemble (data_cfg true) 5 (fun _ => ret tt) (Stmt KDirective [#".incjson"; #"m.json"; #"map.rows"] 1) (init_st []) = (s', Ok tt) /\
  emitted (init_st []) [7; 1; 255] s'.
Proof.
  eapply (C74_json (data_cfg true) 5 (fun _ => ret tt) #".incjson" #"m.json" #"map.rows" #"m.json" #"map.rows" #"m.json" [#"map"; #"rows"] #"map.rows" 1 (init_st []));
    [reflexivity|exact (reads_self (init_st []) [_; _])|apply so_bare; discriminate|apply so_bare; discriminate| |reflexivity| |].
  - apply (dt_more #"map" [#"rows"] #"rows"); [|apply dt_last]; intros H; vm_compute in H; repeat (destruct H as [H|H]; [discriminate H|]); contradiction.
  - eapply rb_key; [vm_compute; reflexivity|]. eapply rb_key; [vm_compute; reflexivity|]. apply rb_here.
  - repeat (apply Forall2_cons; [split; [constructor; vm_compute; reflexivity|lia]|]). apply Forall2_nil.
Qed.
Example C74_json_rejected_example : exists e,
  statement_assemble (data_cfg true) 5 (fun _ => ret tt) (Stmt KDirective [#".incjson"; #"m.json"; #"map.bad"] 1) (init_st []) = (init_st [], Err e).
Proof.
  eapply (C74_json_rejected (data_cfg true) 5 (fun _ => ret tt) #".incjson" #"m.json" #"map.bad" #"m.json" #"map.bad" #"m.json" [#"map"; #"bad"] #"map.bad" 1 (init_st []) _ [JInt 7] [7] (JInt (-1)) []);
    [reflexivity|exact (reads_self (init_st []) [_; _])|apply so_bare; discriminate|apply so_bare; discriminate| |reflexivity| | |].
  - apply (dt_more #"map" [#"bad"] #"bad"); [|apply dt_last]; intros H; vm_compute in H; repeat (destruct H as [H|H]; [discriminate H|]); contradiction.
  - eapply rb_key; [vm_compute; reflexivity|]. eapply rb_key; [vm_compute; reflexivity|]. apply rb_here.
  - repeat (apply Forall2_cons; [split; [constructor; vm_compute; reflexivity|lia]|]). apply Forall2_nil.
  - intros v E. inversion E; subst. lia.
Qed.
Example C74_json_key_example : exists e,
  statement_assemble (data_cfg true) 5 (fun _ => ret tt) (Stmt KDirective [#".incjson"; #"m.json"; #"map.cols"] 1) (init_st []) = (init_st [], Err e).
Proof.
  eapply (C74_json_key (data_cfg true) 5 (fun _ => ret tt) #".incjson" #"m.json" #"map.cols" #"m.json" #"map.cols" #"m.json" [#"map"; #"cols"] #"map.cols" 1 (init_st []));
    [reflexivity|exact (reads_self (init_st []) [_; _])|apply so_bare; discriminate|apply so_bare; discriminate| |reflexivity|].
  - apply (dt_more #"map" [#"cols"] #"cols"); [|apply dt_last]; intros H; vm_compute in H; repeat (destruct H as [H|H]; [discriminate H|]); contradiction.
  - intros j H. exfalso. inversion H as [|? ? ? ? ? E1 H2]; subst. vm_compute in E1. injection E1 as <-.
    inversion H2 as [|? ? ? ? ? E2 H3]; subst. vm_compute in E2. discriminate E2.
Qed.
Example C74_missing_example :
  statement_assemble (data_cfg true) 5 (fun _ => ret tt) (Stmt KDirective [#".incjson"; #"none.json"; #"map.bad"] 1) (init_st []) = (init_st [], Err (PExc OSError)).
Proof.
  apply (C74_missing _ _ _ _ D_incjson _ #"none.json" _ [#"map.bad"] #"none.json");
    [reflexivity|apply nf_json; reflexivity|exact (reads_self (init_st []) [_; _])|apply so_bare; discriminate|].
  apply Forall_cons; [|apply Forall_nil]. exists #"map.bad". apply so_bare; discriminate.
Qed.

Ltac letters := repeat (apply Forall_cons; [vm_compute; reflexivity|]); apply Forall_nil.
Example C75_db_example : exists s',
  statement_assemble demo 5 (fun _ => ret tt) (Stmt KDirective [#".db"; dquote :: #"Hi" ++ [dquote]; #"$0a"; squote :: #"x" ++ [squote]] 1) (init_st []) = (s', Ok tt) /\
  emitted (init_st []) (concat [[72; 105]; [10]; [120]]) s'.
Proof.
  eapply (C75_db demo); [reflexivity|exact (reads_self (init_st []) [_; _; _])|].
  apply Forall2_cons; [apply (db_text demo (init_st []) _ #"Hi"); [apply qd_quoted; left; reflexivity|letters]|].
  apply Forall2_cons; [apply db_number; [do 2 eexists; split; [reflexivity|split; discriminate]|vm_compute; reflexivity]|].
  apply Forall2_cons; [apply (db_text demo (init_st []) _ #"x"); [apply qd_quoted; right; reflexivity|letters]|].
  apply Forall2_nil.
Qed.
Example C75_db_rejected_example : exists s',
  statement_assemble demo 5 (fun _ => ret tt) (Stmt KDirective [#".db"; #"1"; dquote :: [ascii_of_nat 233] ++ [dquote]; #"2"] 1) (init_st []) = (s', Err (PExc UnicodeEncodeError)) /\
  emitted (init_st []) (concat [[1]]) s'.
Proof.
  apply (C75_db_rejected demo 5 (fun _ => ret tt) #".db" _ [#"1"] (dquote :: [ascii_of_nat 233] ++ [dquote]) [ascii_of_nat 233] [#"2"]).
  - reflexivity.
  - exact (reads_self (init_st []) [_; _; _]).
  - apply Forall2_cons; [|apply Forall2_nil]. apply db_number; [do 2 eexists; split; [reflexivity|split; discriminate]|vm_compute; reflexivity].
  - apply qd_quoted. left. reflexivity.
  - intros F. inversion F as [|? ? H _]; subst. vm_compute in H. discriminate H.
Qed.
Example C75_wide_example : exists b s',
  statement_assemble demo 5 (fun _ => ret tt) (Stmt KDirective [#".dd"; dquote :: #"ab" ++ [dquote]] 1) (init_st []) = (s', Ok tt) /\
  emitted (init_st []) b s' /\ zlen b = 4 * (1 + 2) /\ read_fields false 4 3 b = [65279; 97; 98].
Proof.
  apply (C75_wide demo 5 (fun _ => ret tt) #".dd" D_dd 4 _ (dquote :: #"ab" ++ [dquote]) #"ab" 1 (init_st []));
    [reflexivity|constructor|lia|exact (reads_self (init_st []) [_])|apply qd_quoted; left; reflexivity].
Qed.
Example C75_digits_example : exists bs s',
  statement_assemble demo 5 (fun _ => ret tt) (Stmt KDirective [#".dw_to_asciiz"; #"1200"; #"0"] 1) (init_st []) = (s', Ok tt) /\
  emitted (init_st []) (concat bs ++ [0]) s' /\ Forall2 decimal_text [1200; 0] bs.
Proof.
  apply (C75_digits demo 5 (fun _ => ret tt) #".dw_to_asciiz" D_dw_to_asciiz 2 5 [0] [#"1200"; #"0"] [#"1200"; #"0"]);
    [reflexivity|constructor|exact (reads_self (init_st []) [_; _])|].
  repeat (apply Forall2_cons; [split; [do 2 eexists; split; [reflexivity|split; discriminate]|vm_compute; reflexivity]|]). apply Forall2_nil.
Qed.
Example C75_name_example : exists r s',
  statement_assemble demo 5 (fun _ => ret tt) (Stmt KDirective [#".db_to_ascii"; #"here"] 1) (init_st []) = (s', Ok tt) /\
  ld_label r = #"here" /\ ld_relative r = 0 /\ ld_hook r = Some (to_str_hook 3) /\
  emitted (set_labels_addresses (init_st []) (dset Z.eqb [] 0 r)) [0; 0; 0] s'.
Proof.
  apply (C75_name demo 5 (fun _ => ret tt) #".db_to_ascii" D_db_to_ascii 1 3 [] #"here" #"here" 1 (init_st []));
    [reflexivity|constructor|exact (reads_self (init_st []) [_])|do 2 eexists; split; [reflexivity|split; discriminate]|vm_compute; reflexivity].
Qed.

Example C76_example : exists ds,
  statement_assemble demo 5 (fun _ => ret tt) (Stmt KDirective [#".define"; #"two"; #"one+1"] 1) (init_st [(#"one", #"1")]) =
    (set_defines (init_st [(#"one", #"1")]) ds, Ok tt) /\
  dget str_eqb ds #"two" = Some #"1+1" /\ (forall x, x <> #"two" -> dget str_eqb ds x = dget str_eqb [(#"one", #"1")] x).
Proof.
  apply (C76_define demo 5 (fun _ => ret tt) #".define" #"two" #"one+1" #"two" #"1+1"); [reflexivity|].
  exact (reads_self (init_st [(#"one", #"1")]) [_; _]).
Qed.

(** ** Findings *)

(** An integer of a JSON document is not wrapped to a byte as the same number in a string is. *)
Theorem C74_negative_refuted :
  data_after false [".incjson m.json map.rows"]%string = ([7; 1; 255], Ok tt) /\
  data_after false [".incjson m.json map.bad"]%string = ([], Err (PExc ValueError)).
Proof. split; vm_compute; reflexivity. Qed.
Print Assumptions C74_negative_refuted.

(** Strings in .dw are little-endian with a byte-order mark on big-endian processors too. *)
Theorem C75_wide_refuted :
  data_after true [".dw ""A"""]%string = ([255; 254; 65; 0], Ok tt) /\
  data_after true [".dw 65"]%string = ([0; 65], Ok tt).
Proof. split; vm_compute; reflexivity. Qed.
Print Assumptions C75_wide_refuted.

(** Quoted numbers work in .db_to_ascii only. *)
Theorem C75_quoted_refuted :
  data_after false [".db_to_ascii ""12"""]%string = ([49; 50], Ok tt) /\
  data_after false [".dw_to_ascii ""12"""]%string = ([], Err (PExc ValueError)).
Proof. split; vm_compute; reflexivity. Qed.
Print Assumptions C75_quoted_refuted.

(** The same value has other text as a number than as a label. *)
Theorem C75_padding_refuted : exists text, text = lines [".db_to_ascii 2 two"; ".org 2"; "two:"]%string /\
  assembled (fst ((assemble demo 5 text ;; link demo dummy_linker) (init_st []))) = [50; 48; 48; 50].
Proof. eexists. split; [reflexivity|]. vm_compute. reflexivity. Qed.
Print Assumptions C75_padding_refuted.

(** A second .define of a name defines the value of the first as a name: the name keeps its
    value and the value is replaced everywhere. *)
Theorem C76_redefine_refuted :
  data_after false [".define A 1"; ".define A 2"; ".db A 1"]%string = ([1; 2], Ok tt).
Proof. vm_compute. reflexivity. Qed.
Print Assumptions C76_redefine_refuted.
