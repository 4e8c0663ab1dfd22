(** Computations that do the same when more labels are known. *)
From Coq Require Import Lia.
From Verif Require Import Py PyFacts Utils Tokenizer State Assembler SpecUtils SpecParse SpecExec ParseFacts Instr SpecCalm.
Local Open Scope Z_scope.

(** Two computations, in a state and in the one with labels L. *)
Definition cat {A} (s : st) (L : list (str * label)) (m1 m2 : M A) : Prop :=
  keeps (labels s) L -> forall s' a, m1 s = (s', Ok a) ->
    labels s' = labels s /\ m2 (set_labels s L) = (set_labels s' L, Ok a).

Lemma cat_calm : forall A (m : M A), (forall s L, cat s L m m) <-> calm m.
Proof. intros A m. split; intros H. - intros s s' a L K E. exact (H s L K s' a E). - intros s L K s' a E. exact (H s s' a L K E). Qed.

Lemma cat_ret : forall A (a : A) s L, cat s L (ret a) (ret a).
Proof. intros A a s L K s' b E. injection E as <- <-. split; reflexivity. Qed.
Lemma cat_raise : forall A e s L m, cat (A := A) s L (raise e) m.
Proof. intros A e s L m K s' b E. discriminate. Qed.
Lemma cat_araise : forall A e s L m, cat (A := A) s L (araise e) m.
Proof. intros. apply cat_raise. Qed.
Lemma cat_praise : forall A e s L m, cat (A := A) s L (praise e) m.
Proof. intros. apply cat_raise. Qed.
Lemma cat_lift : forall A (r : res A) s L, cat s L (lift r) (lift r).
Proof. intros A r s L K s' a E. injection E as <- ->. split; reflexivity. Qed.
Lemma cat_bind : forall A B (m1 m2 : M A) (k1 k2 : A -> M B) s L, cat s L m1 m2 ->
  (forall t a, cat t L (k1 a) (k2 a)) -> cat s L (bind m1 k1) (bind m2 k2).
Proof.
  intros A B m1 m2 k1 k2 s L H HK K s' b E. unfold bind in *. destruct (m1 s) as [t [a|e]] eqn:F; [|discriminate].
  destruct (H K t a F) as [E1 E2]. rewrite E2. rewrite <- E1 in K. destruct (HK t a K s' b E) as [E3 E4].
  split; [congruence|exact E4].
Qed.
Lemma cat_get : forall B (k1 k2 : st -> M B) s L, cat s L (k1 s) (k2 (set_labels s L)) -> cat s L (bind get k1) (bind get k2).
Proof. intros B k1 k2 s L H. exact H. Qed.
Lemma cat_modify : forall f s L, labels (f s) = labels s -> f (set_labels s L) = set_labels (f s) L -> cat s L (modify f) (modify f).
Proof. intros f s L H1 H2 K s' a E. injection E as <- <-. split; [exact H1|]. unfold modify. rewrite H2. reflexivity. Qed.
Lemma cat_iter : forall A (f : A -> M unit) l s L, (forall a t, cat t L (f a) (f a)) -> cat s L (iter f l) (iter f l).
Proof.
  intros A f l s L H. revert s. induction l as [|a l IH]; intros s; cbn [iter]; [apply cat_ret|]. apply cat_bind; auto.
Qed.
Lemma cat_times : forall m n s L, (forall t, cat t L m m) -> cat s L (times n m) (times n m).
Proof. intros m n s L H. revert s. induction n as [|n IH]; intros s; cbn [times]; [apply cat_ret|]. apply cat_bind; auto. Qed.
Lemma cat_calmed : forall A (m : M A) s L, calm m -> cat s L m m.
Proof. intros A m s L H. apply cat_calm. exact H. Qed.

(** ** Reading operands *)

Lemma ops_loop_more : forall (g1 g2 : str -> res Z) ops v r,
  (forall a x, g1 a = Ok x -> g2 a = Ok x) -> ops_loop g1 ops v = Ok r -> ops_loop g2 ops v = Ok r.
Proof.
  intros g1 g2 ops. induction ops as [|[op arg] ops IH]; intros v r G H; [exact H|]. cbn [ops_loop] in *.
  destruct arg as [|ch arg].
  - cbn [rbind] in *. destruct (apply_command op v 1); [|discriminate]. cbn [rbind] in *. auto.
  - destruct (g1 (ch :: arg)) as [x|] eqn:E; [|discriminate]. rewrite (G _ _ E). cbn [rbind] in *.
    destruct (apply_command op v x); [|discriminate]. cbn [rbind] in *. auto.
Qed.
Lemma amf_more : forall p l1 l2, keeps l1 l2 -> forall f pre post v r,
  apply_math_formula p l1 f pre post v = Ok r -> apply_math_formula p l2 f pre post v = Ok r.
Proof.
  intros p l1 l2 X. induction f; intros pre post v r H; [exact H|].
  rewrite amf_unfold in *. revert H. apply ops_loop_more. intros arg x.
  unfold eval_arg, parse_integer_with, label_by_name_with.
  destruct (get_math_formula arg) as [[t pre'] post'].
  destruct (internal_parse_integer p t) as [[[a|] d]|]; cbn [rbind]; auto.
  - destruct (apply_math_formula p l1 f pre' post' a) as [y|] eqn:E; [|discriminate].
    rewrite (IHf _ _ _ _ E). cbn [rbind]. destruct (check_integer y d 64 false); auto.
  - destruct (dget str_eqb l1 t) as [lb|] eqn:D; [|discriminate]. rewrite (X _ _ D).
    destruct (apply_math_formula p l1 f pre' post' (label_address lb - 0)) as [y|] eqn:E; [|discriminate].
    rewrite (IHf _ _ _ _ E). auto.
Qed.
Lemma parse_more : forall p l1 l2 t n sg r, keeps l1 l2 ->
  parse_integer p l1 t n sg = Ok r -> parse_integer p l2 t n sg = Ok r.
Proof.
  intros p l1 l2 t n sg r X. unfold parse_integer, parse_integer_with.
  destruct (get_math_formula t) as [[tk pre] post].
  destruct (internal_parse_integer p tk) as [[[v|] dec]|]; cbn [rbind]; [|exact (fun H => H)|discriminate].
  generalize (amf_more p l1 l2 X math_fuel pre post v). generalize (apply_math_formula p l1 math_fuel pre post v).
  generalize (apply_math_formula p l2 math_fuel pre post v). intros r2 r1 M.
  destruct r1 as [y|]; [|discriminate]. rewrite (M y eq_refl). auto.
Qed.
Lemma relative_more : forall p l1 l2 t start v, keeps l1 l2 ->
  label_relative p l1 t start = Ok (Some v) -> label_relative p l2 t start = Ok (Some v).
Proof.
  intros p l1 l2 t start v X. unfold label_relative, label_by_name_with.
  destruct (get_math_formula t) as [[tk pre] post].
  destruct (dget str_eqb l1 tk) as [lb|] eqn:D; [|discriminate]. rewrite (X _ _ D).
  generalize (amf_more p l1 l2 X math_fuel pre post (label_address lb - start)).
  generalize (apply_math_formula p l1 math_fuel pre post (label_address lb - start)).
  generalize (apply_math_formula p l2 math_fuel pre post (label_address lb - start)). intros r2 r1 M.
  destruct r1 as [y|]; [|discriminate]. rewrite (M y eq_refl). auto.
Qed.

Lemma cat_parse : forall p t n sg s L, cat s L (m_parse_integer p t n sg) (m_parse_integer p t n sg).
Proof.
  intros p t n sg s L K s' a E. unfold m_parse_integer in *. injection E as <- E. split; [reflexivity|].
  cbn [labels set_labels]. rewrite (parse_more _ _ _ _ _ _ _ K E). reflexivity.
Qed.
Lemma cat_ref : forall d s L, cat s L (add_label_translation d) (add_label_translation d).
Proof. intros. apply cat_modify; reflexivity. Qed.
Lemma cat_append : forall b s L, cat s L (append_assembled_bytes b) (append_assembled_bytes b).
Proof. intros. apply cat_modify; reflexivity. Qed.
Lemma cat_raw : forall b s L, cat s L (append_raw b) (append_raw b).
Proof. intros. apply cat_modify; reflexivity. Qed.
Lemma cat_tok : forall l i s L, cat s L (tok_at l i) (tok_at l i).
Proof. intros. unfold tok_at. destruct (nth_error l i); [apply cat_ret|apply cat_praise]. Qed.
Lemma cat_open : forall A (f : str -> option A) n s L, cat s L (open_file f n) (open_file f n).
Proof. intros. unfold open_file. destruct (f n); [apply cat_ret|apply cat_praise]. Qed.

Ltac cstep :=
  cbv zeta;
  lazymatch goal with
  | |- cat _ _ (bind get _) _ => apply cat_get; cbn [assembled labels current_org current_org_end org_counter labels_addresses macros
      macro_recording repeat_ log sections current_section exports defines cartridge_set x86_bits elf_header relocations set_labels]
  | |- cat _ _ (bind _ _) _ => apply cat_bind; [|intros ? ?]
  | |- cat _ _ (ret _) _ => apply cat_ret
  | |- cat _ _ (raise _) _ => apply cat_raise
  | |- cat _ _ (araise _) _ => apply cat_araise
  | |- cat _ _ (praise _) _ => apply cat_praise
  | |- cat _ _ (lift _) _ => apply cat_lift
  | |- cat _ _ (m_parse_integer _ _ _ _) _ => apply cat_parse
  | |- cat _ _ (add_label_translation _) _ => apply cat_ref
  | |- cat _ _ (append_assembled_bytes _) _ => apply cat_append
  | |- cat _ _ (append_raw _) _ => apply cat_raw
  | |- cat _ _ (tok_at _ _) _ => apply cat_tok
  | |- cat _ _ (open_file _ _) _ => apply cat_open
  | |- cat _ _ (modify _) _ => apply cat_modify; reflexivity
  | |- cat _ _ (iter _ _) _ => apply cat_iter; intros ? ?
  | |- cat _ _ (times _ _) _ => apply cat_times; intros ?
  | |- cat _ _ (match ?x with _ => _ end) _ => destruct x
  end.
Ltac cgo := repeat cstep.

Lemma cat_poil : forall p d b s L, cat s L (parse_integer_or_label p d b) (parse_integer_or_label p d b).
Proof. intros. unfold parse_integer_or_label. cgo. Qed.
Lemma cat_int_arg : forall p t n s L, cat s L (int_arg p t n) (int_arg p t n).
Proof. intros. unfold int_arg. cgo. Qed.
Lemma cat_fill_arg : forall p t s L, cat s L (fill_arg p t) (fill_arg p t).
Proof. intros. unfold fill_arg. cgo. apply cat_int_arg. Qed.
Lemma cat_change_org : forall p a b s L, cat s L (change_org p a b) (change_org p a b).
Proof. intros. unfold change_org. cgo. Qed.
Lemma cat_csv : forall p n pk cols blob s L, cat s L (csv_blob p n pk cols blob) (csv_blob p n pk cols blob).
Proof. intros p n pk cols. induction cols as [|x cols IH]; intros blob s L; cbn [csv_blob]; cgo. apply IH. Qed.
Lemma cat_json : forall p items blob s L, cat s L (json_blob p items blob) (json_blob p items blob).
Proof. intros p items. induction items as [|x items IH]; intros blob s L; cbn [json_blob]; cgo; apply IH. Qed.
Lemma cat_bytes_or_ascii : forall p l blob s L, cat s L (parse_bytes_or_ascii p l blob) (parse_bytes_or_ascii p l blob).
Proof. intros p l. induction l as [|x l IH]; intros blob s L; cbn [parse_bytes_or_ascii]; cgo; apply IH. Qed.
Lemma cat_close : forall s L, cat s L (modify close_section) (modify close_section).
Proof.
  intros s L. apply cat_modify; unfold close_section; cbn [current_section sections set_labels];
    destruct (current_section s) as [[|c n]|]; try reflexivity; destruct (dget str_eqb (sections s) (c :: n)); reflexivity.
Qed.
Ltac cgoes := repeat first [cstep | apply cat_poil | apply cat_int_arg | apply cat_fill_arg | apply cat_change_org
  | apply cat_csv | apply cat_json | apply cat_bytes_or_ascii | apply cat_close].

(** ** Directives *)

Lemma cat_run : forall c asm d t s L, d <> D_include -> (forall f, d = D_custom f -> calm (f t)) ->
  cat s L (run_directive c asm d t) (run_directive c asm d t).
Proof.
  intros c asm d t s L ND CU. destruct d; cbn [run_directive].
  all: try (exfalso; apply ND; reflexivity).
  all: try (apply cat_calmed; apply CU; reflexivity).
  all: unfold macro_start, macro_end, directive_org, directive_incbin, directive_inccsv, directive_incjson, directive_define,
    directive_db, directive_dw, directive_dd, directive_db_to_ascii, directive_dw_to_ascii, directive_db_to_asciiz,
    directive_dw_to_asciiz, directive_fill, directive_ram, directive_log, directive_align, directive_repeat,
    directive_end_repeat, directive_goto, directive_upto, directive_goto_upto, directive_section, directive_export,
    directive_db_to_ascii, directive_dw_to_ascii, data_token, to_ascii_token.
  all: cgoes.
Qed.

(** ** Instructions *)

Lemma cat_store : forall pl t s L, cat s L (store_tokens pl t) (store_tokens pl t).
Proof.
  intros [|key i] t s L; cbn [store_tokens]; [apply cat_ret|]. apply cat_modify; cbn [macros set_labels];
    (destruct (dget str_eqb (macros s) key) as [m|]; [|reflexivity]); destruct (nth_error (m_body m) i); reflexivity.
Qed.
Lemma cat_handler : forall f t s L, calm (f t) -> cat s L (call_handler f t) (call_handler f t).
Proof.
  intros f t s L H K s' a E. unfold call_handler in *. destruct (f t s) as [u [[b|]|[x|x]]] eqn:F; try discriminate.
  injection E as <- <-. destruct (H _ _ _ _ K F) as [E1 E2]. rewrite E2. split; [exact E1|reflexivity].
Qed.
Lemma cat_opcode : forall c, calm_plugins c -> forall key t s L, cat s L (opcode_assemble c key t) (opcode_assemble c key t).
Proof.
  intros c (HI & _) key t s L. unfold opcode_assemble. destruct (dget str_eqb (c_instructions c) key) as [[b|f]|] eqn:D; [cgo|cgo|cgo].
  apply cat_handler. exact (HI _ _ _ D).
Qed.
Lemma cat_loop : forall run key params args n i s L, (forall pl t s, cat s L (run pl t) (run pl t)) ->
  cat s L (macro_loop run key params args n i) (macro_loop run key params args n i).
Proof.
  intros run key params args n. induction n as [|n IH]; intros i s L H; cbn [macro_loop]; [apply cat_ret|].
  cgo; try apply cat_store; auto.
Qed.
Lemma cat_instruction : forall c, calm_plugins c -> forall fuel l pl t s L,
  cat s L (instruction_assemble c fuel l pl t) (instruction_assemble c fuel l pl t).
Proof.
  intros c HC fuel. induction fuel as [|f IH]; intros l pl t s L; cbn [instruction_assemble];
    apply cat_get; cbn [macro_recording macros defines set_labels];
    (destruct (macro_recording s) as [key|];
     [apply cat_modify; cbn [macros set_labels]; destruct (dget str_eqb (macros s) key); reflexivity|]);
    cbv zeta; apply cat_bind; try apply cat_store; intros ? ?; apply cat_bind; try apply cat_tok; intros ? ?;
    match goal with |- cat _ _ (match ?x with _ => _ end) _ => destruct x end; try (apply cat_opcode; exact HC).
  - apply cat_praise.
  - apply cat_loop. intros. apply IH.
Qed.

(** ** Statements *)

Definition lat {A} (X : list (str * label)) (m1 m2 : M A) : Prop := forall s L s' a, plus X (labels s) L -> m1 s = (s', Ok a) ->
  keeps (labels s) (labels s') /\
  (((forall k, dget str_eqb X k <> None -> dget str_eqb (labels s) k = None -> dget str_eqb (labels s') k = None) /\
    exists L', m2 (set_labels s L) = (set_labels s' L', Ok a) /\ plus X (labels s') L') \/
   (clash X (labels s') /\ snd (m2 (set_labels s L)) = Err (AExc LabelAlreadyDefined))).

Lemma plus_keeps : forall X l1 l2, plus X l1 l2 -> keeps l1 l2.
Proof. intros X l1 l2 H k v E. rewrite H, E. reflexivity. Qed.
Lemma lat_cat : forall A X (m : M A), (forall s L, cat s L m m) -> lat X m m.
Proof.
  intros A X m H s L s' a P E. destruct (H s L (plus_keeps _ _ _ P) s' a E) as [E1 E2]. rewrite E1.
  split; [intros k v D; exact D|]. left. split; [auto|]. exists L. split; [exact E2|exact P].
Qed.
Lemma clash_keeps : forall X l1 l2, clash X l1 -> keeps l1 l2 -> clash X l2.
Proof.
  intros X l1 l2 (k & D & E) K. exists k. split; [exact D|]. destruct (dget str_eqb l1 k) as [v|] eqn:F; [|congruence].
  rewrite (K _ _ F). discriminate.
Qed.
Lemma lat_bind : forall A B X (m1 m2 : M A) (k1 k2 : A -> M B), lat X m1 m2 -> (forall a, lat X (k1 a) (k2 a)) ->
  lat X (bind m1 k1) (bind m2 k2).
Proof.
  intros A B X m1 m2 k1 k2 H K s L s' b P E. unfold bind in *. destruct (m1 s) as [t [a|e]] eqn:F; [|discriminate].
  destruct (H s L t a P F) as [G [(N & L' & E2 & P')|[C E2]]].
  - rewrite E2. destruct (K a t L' s' b P' E) as [G2 [(N2 & R)|R]]; (split; [intros k v D; auto|]).
    + left. split; [auto|exact R].
    + right. exact R.
  - assert (KT : keeps (labels t) (labels s')).
    { assert (plus X (labels t) (labels t ++ X)) as PT.
      { intros k. generalize (labels t) as l. induction l as [|[n w] l IH]; [reflexivity|]. cbn [app dget].
        destruct (str_eqb k n); [reflexivity|exact IH]. }
      destruct (K a t _ s' b PT E) as [KT _]. exact KT. }
    split; [intros k v D; auto|]. right. split; [eapply clash_keeps; eauto|].
    destruct (m2 (set_labels s L)) as [u [c|x]]; cbn [snd] in *; [discriminate|]. injection E2 as ->. reflexivity.
Qed.
Lemma lat_iter : forall A X (f g : A -> M unit) l, (forall a, lat X (f a) (g a)) -> lat X (iter f l) (iter g l).
Proof.
  intros A X f g l H. induction l as [|a l IH]; cbn [iter]; [apply lat_cat; intros; apply cat_ret|]. apply lat_bind; auto.
Qed.
Lemma lat_raise : forall A X e (m : M A), lat X (raise e) m.
Proof. intros A X e m s L s' a P E. discriminate. Qed.
Lemma lat_same : forall A (m : M A), (forall X, lat X m m) -> same_with_more m.
Proof.
  intros A m H X s s' a l E NC P. destruct (H X s l s' a P E) as [_ [(N & L' & E2 & P')|R]]; [left|right; exact R].
  split; [|eauto]. intros (k & D & F). apply F. apply N; [exact D|].
  destruct (dget str_eqb (labels s) k) eqn:G; [|reflexivity]. exfalso. apply NC. exists k. rewrite G. split; [exact D|discriminate].
Qed.

Lemma label_flat : forall c t s, label_assemble c t s =
  match macro_recording s with
  | Some _ => (s, Err (AExc LabelNotAllowedInMacro))
  | None => match nth_error t 0 with
            | None => (s, Err (PExc IndexError))
            | Some key =>
                match dget str_eqb (labels s) key with
                | Some _ => (s, Err (AExc LabelAlreadyDefined))
                | None =>
                    if negb (is_valid_name key) then (s, Err (AExc InvalidLabel)) else
                    match parse_integer (c_p c) (labels s) key 64 false with
                    | Err e => (s, Err e)
                    | Ok (Some _) => (s, Err (AExc InvalidLabel))
                    | Ok None => (set_labels s (dset str_eqb (labels s) key (MkLabel (org_counter s) (current_org s) (current_section s))), Ok tt)
                    end
                end
            end
  end.
Proof.
  intros c t s. unfold label_assemble, bind, get, tok_at, dmem, m_parse_integer, ret, araise, praise, raise, modify.
  destruct (macro_recording s); [reflexivity|]. destruct (nth_error t 0) as [key|]; [|reflexivity].
  destruct (dget str_eqb (labels s) key); [reflexivity|]. destruct (negb (is_valid_name key)); [reflexivity|].
  destruct (parse_integer (c_p c) (labels s) key 64 false) as [[z|]|e]; reflexivity.
Qed.
Lemma lat_label : forall c X t, lat X (label_assemble c t) (label_assemble c t).
Proof.
  intros c X t s L s' [] P E. rewrite label_flat in *.
  cbn [macro_recording labels set_labels org_counter current_org current_section] in *. destruct (macro_recording s); [discriminate|].
  destruct (nth_error t 0) as [key|]; [|discriminate].
  destruct (dget str_eqb (labels s) key) as [v|] eqn:D; [discriminate|].
  destruct (negb (is_valid_name key)); [discriminate|].
  destruct (parse_integer (c_p c) (labels s) key 64 false) as [[z|]|e] eqn:PI; try discriminate.
  injection E as <-. cbn [labels set_labels].
  assert (O : forall k, k <> key -> forall w (l : list (str * label)), dget str_eqb (dset str_eqb l key w) k = dget str_eqb l k).
  { intros k N w l. apply (dget_dset_other str_eqb str_eqb_eq). exact N. }
  split. { intros k v E. rewrite O; [exact E|]. intros ->. congruence. }
  rewrite (P key), D. destruct (dget str_eqb X key) as [x|] eqn:DX.
  { right. split; [|reflexivity]. exists key. rewrite DX, (dget_dset_same str_eqb str_eqb_eq). split; discriminate. }
  rewrite (parse_more _ _ _ _ _ _ _ (plus_keeps _ _ _ P) PI). left. split.
  { intros k XK DK. rewrite O; [exact DK|]. intros ->. congruence. }
  eexists. split; [reflexivity|]. cbn [labels set_labels]. intros k.
  destruct (str_eqb k key) eqn:EK.
  - apply str_eqb_eq in EK. subst k. rewrite !(dget_dset_same str_eqb str_eqb_eq). reflexivity.
  - assert (N : k <> key) by (intros ->; rewrite str_eqb_refl in EK; discriminate).
    rewrite !O by exact N. apply P.
Qed.

Lemma lat_directive : forall c X, calm_plugins c -> forall asm t, (forall x, lat X (asm x) (asm x)) ->
  lat X (directive_assemble c asm t) (directive_assemble c asm t).
Proof.
  intros c X (_ & HD & _) asm t HA s L s' a P E.
  assert (H : forall toks, lat X (let! t0 := tok_at toks 0 in
      match dget str_eqb (c_directives c) (if case_sensitive (c_p c) then skipn 1 t0 else upper (skipn 1 t0)) with
      | None => araise UnknownDirective
      | Some d => run_directive c asm d toks
      end) (let! t0 := tok_at toks 0 in
      match dget str_eqb (c_directives c) (if case_sensitive (c_p c) then skipn 1 t0 else upper (skipn 1 t0)) with
      | None => araise UnknownDirective
      | Some d => run_directive c asm d toks
      end)).
  { clear s L s' a P E. intros toks. apply lat_bind; [apply lat_cat; intros; apply cat_tok|]. intros t0.
    destruct (dget str_eqb (c_directives c) _) as [d|] eqn:D; [|apply lat_raise].
    assert (LD : d = D_include \/ d <> D_include) by (destruct d; first [left; reflexivity | right; discriminate]).
    destruct LD as [-> | ND].
    - cbn [run_directive]. unfold directive_include. destruct (negb (len_in toks [2]%nat)); [apply lat_raise|].
      apply lat_bind; [apply lat_cat; intros; apply cat_tok|]. intros t1.
      apply lat_bind; [apply lat_cat; intros; apply cat_lift|]. intros nm.
      apply lat_bind; [apply lat_cat; intros; apply cat_open|]. intros code. apply HA.
    - apply lat_cat. intros s0 L0. apply cat_run; [exact ND|]. intros f ->. exact (HD _ _ _ D). }
  exact (H (substitute_with_dict t (defines s) 1) s L s' a P E).
Qed.
Lemma lat_statement : forall c X, calm_plugins c -> forall fuel asm x, (forall x, lat X (asm x) (asm x)) ->
  lat X (statement_assemble c fuel asm x) (statement_assemble c fuel asm x).
Proof.
  intros c X HC fuel asm x HA. unfold statement_assemble. destruct (s_kind x).
  all: first [apply lat_label | apply lat_directive; assumption | apply lat_cat; intros; apply cat_instruction; exact HC].
Qed.
Lemma lat_assemble : forall c X, calm_plugins c -> forall fuel text, lat X (assemble c fuel text) (assemble c fuel text).
Proof.
  intros c X HC fuel. induction fuel as [|f IH]; intros text; cbn [assemble];
    (apply lat_bind; [apply lat_cat; intros; apply cat_lift|]); intros ss;
    (apply lat_bind; [apply lat_iter; intros x; apply lat_statement; [exact HC|]|
       intros _; apply lat_cat; intros; unfold assemble_tail; cgoes]); [intros; apply lat_raise|exact IH].
Qed.
Lemma lat_exec : forall c X, calm_plugins c -> forall fuel ss, lat X (exec c fuel ss) (exec c fuel ss).
Proof.
  intros c X HC fuel ss. unfold exec. apply lat_iter. intros x. apply lat_statement; [exact HC|].
  intros y. destruct fuel; [apply lat_raise|apply lat_assemble; exact HC].
Qed.

(** ** Linking *)

Lemma absolute_head : forall p l t start start', label_relative p l t start = Ok None -> label_relative p l t start' = Ok None.
Proof.
  intros p l t start start'. unfold label_relative, label_by_name_with. destruct (get_math_formula t) as [[tk pre] post].
  destruct (dget str_eqb l tk); [|reflexivity]. destruct (apply_math_formula p l math_fuel pre post (label_address l0 - start)); discriminate.
Qed.
Lemma cat_patch : forall be a size v n i s L, cat s L (patch_loop be a size v i n) (patch_loop be a size v i n).
Proof. intros be a size v n. induction n as [|n IH]; intros i s L; cbn [patch_loop]; cgo. apply IH. Qed.
Lemma cat_hook : forall h a v s L, cat s L (apply_hook h a v) (apply_hook h a v).
Proof.
  intros h a v s L K s' [] E. unfold apply_hook in *. cbn [assembled set_labels].
  destruct (h a v (assembled s)) as [out [e|]]; [discriminate|]. injection E as <-. split; reflexivity.
Qed.
Lemma cat_resolve : forall p a d s L, cat s L (resolve_one p dummy_linker a d) (resolve_one p dummy_linker a d).
Proof.
  intros p a d s L K s' [] E. unfold resolve_one in E |- *.
  assert (A : forall x, label_absolute p (labels s) (ld_label d) = Ok (Some x) ->
    label_absolute p L (ld_label d) = Ok (Some x)).
  { intros x H. change (label_absolute p L (ld_label d)) with (label_relative p L (ld_label d) 0).
    exact (relative_more p (labels s) L (ld_label d) 0 x K H). }
  unfold bind at 1 in E. unfold bind at 1. unfold m_label_absolute in *. cbn [labels set_labels].
  destruct (label_absolute p (labels s) (ld_label d)) as [[x|]|e] eqn:LA; [| |discriminate].
  - rewrite (A x eq_refl). unfold bind at 1 in E. unfold bind at 1.
    destruct (negb (ld_relative d =? 0)) eqn:RL; cbn [negb andb] in *.
    + destruct (label_relative p (labels s) (ld_label d) (ld_relative d)) as [[y|]|e] eqn:LR; [| |discriminate].
      * cbn [labels set_labels]. rewrite (relative_more _ _ _ _ _ _ K LR). revert E. revert s' . 
        match goal with |- forall s', ?m s = _ -> _ => assert (C : forall s L, cat s L m m) end.
        { intros u M. cgo; try apply cat_hook; try apply cat_patch. }
        intros s' E. exact (C s L K s' tt E).
      * apply absolute_head with (start' := 0) in LR. change (label_absolute p (labels s) (ld_label d) = Ok None) in LR. congruence.
    + unfold ret at 1 in E. unfold ret at 1. revert E. revert s'.
      match goal with |- forall s', ?m s = _ -> _ => assert (C : forall s L, cat s L m m) end.
      { intros u M. cgo; try apply cat_hook; try apply cat_patch. }
      intros s' E. exact (C s L K s' tt E).
  - exfalso. unfold bind at 1 in E. destruct (negb (ld_relative d =? 0)) eqn:RL.
    + assert (LR : label_relative p (labels s) (ld_label d) (ld_relative d) = Ok None) by (apply absolute_head with (start := 0); exact LA).
      rewrite LR in E. unfold bind at 1, dummy_linker, lk_resolve, araise, raise, bind at 1 in E. discriminate.
    + unfold ret at 1 in E. unfold bind at 1, dummy_linker, lk_resolve, araise, raise, bind at 1 in E. discriminate.
Qed.
Lemma cat_link : forall c, calm_plugins c -> forall s L, cat s L (link c dummy_linker) (link c dummy_linker).
Proof.
  intros c (_ & _ & HP) s L. unfold link.
  assert (I : forall l, incl l (c_pre_link c ++ c_post_link c) -> forall s, cat s L (iter (fun m => m) l) (iter (fun m => m) l)).
  { induction l as [|m l IH]; intros H u; cbn [iter]; [apply cat_ret|].
    apply cat_bind; [apply cat_calmed; apply HP; apply H; left; reflexivity|]. intros t [].
    apply IH. intros x IX. apply H. right. exact IX. }
  apply cat_bind; [apply I; intros x IX; apply in_or_app; left; exact IX|]. intros s1 [].
  apply cat_bind; [unfold resolve_labels; apply cat_get; cbn [labels_addresses set_labels]; apply cat_iter; intros [a d] t; apply cat_resolve|].
  intros s2 []. apply cat_bind; [apply I; intros x IX; apply in_or_app; right; exact IX|]. intros s3 [].
  unfold dummy_linker, lk_link. cgo.
Qed.
