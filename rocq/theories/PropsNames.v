(** C06 empty suffixes, C29 the names of directives and instructions, C34 the references an ELF linker cannot
    resolve, C74 objects in JSON files. *)
From Coq Require Import Lia.
From Verif Require Import Py PyFacts Utils Tokenizer State Assembler SpecUtils UtilsFacts SpecTok SpecSubst SubstFacts SpecParse ParseFacts
  SpecExec SpecLink LinkFacts SpecFiles Elf Events ExecFacts DigitFacts Demo Z80 SpecHost PropsUtils PropsParse PropsExec PropsData TileFacts PropsFiles PropsElf
  I8086 Platform ElfPlat SpecPlat SpecPlace PropsPlace PropsEplat.
Local Open Scope Z_scope.

(** ** C29: which entry a name stands for *)

(** Two spellings of one name. *)
Definition spells (p : pcfg) (m k : str) : Prop := if case_sensitive p then m = k else upper m = upper k.

(** The last entry of a table under the name k. *)
Definition last_entry {A} (p : pcfg) (l : list (str * A)) (k : str) (v : A) : Prop :=
  exists l1 m l2, l = l1 ++ (m, v) :: l2 /\ spells p m k /\ forall n w, In (n, w) l2 -> ~ spells p n k.

Lemma spells_key : forall p m k, spells p m k <-> (if case_sensitive p then m else upper m) = (if case_sensitive p then k else upper k).
Proof. intros p m k. unfold spells. destruct (case_sensitive p); reflexivity. Qed.

Lemma register_last : forall A p (l : list (str * A)) t k v,
  dget str_eqb (register_all p t l) (if case_sensitive p then k else upper k) = Some v <->
  last_entry p l k v \/
  (dget str_eqb t (if case_sensitive p then k else upper k) = Some v /\ forall n w, In (n, w) l -> ~ spells p n k).
Proof.
  intros A p. induction l as [|[m w] l IH]; intros t k v.
  - cbn [register_all fold_left]. split; [intros H; right; split; [exact H|intros n w []]|].
    intros [(l1 & m & l2 & E & _)|[H _]]; [destruct l1; discriminate|exact H].
  - change (register_all p t ((m, w) :: l)) with (register_all p (register p t m w) l). rewrite IH. unfold register.
    rewrite (PyFacts.dget_dset str_eqb str_eqb_eq).
    destruct (str_eqb (if case_sensitive p then k else upper k) (if case_sensitive p then m else upper m)) eqn:E.
    + apply str_eqb_eq in E. symmetry in E. rewrite <- spells_key in E. split.
      * intros [(l1 & n & l2 & -> & S & O)|[H O]].
        { left. exists ((m, w) :: l1), n, l2. auto. }
        injection H as ->. left. exists [], m, l. auto.
      * intros [(l1 & n & l2 & X & S & O)|[_ O]]; [|exfalso; apply (O m w); [left; reflexivity|exact E]].
        destruct l1 as [|x l1]; cbn [app] in X.
        { injection X as -> -> ->. right. auto. }
        injection X as <- ->. left. exists l1, n, l2. auto.
    + assert (NE : ~ spells p m k).
      { intros S. rewrite spells_key in S. rewrite S, (proj2 (str_eqb_eq _ _) eq_refl) in E. discriminate. }
      split.
      * intros [(l1 & n & l2 & -> & S & O)|[H O]].
        { left. exists ((m, w) :: l1), n, l2. auto. }
        right. split; [exact H|]. intros n u [X|I]; [injection X as <- <-; exact NE|exact (O n u I)].
      * intros [(l1 & n & l2 & X & S & O)|[H O]].
        { destruct l1 as [|x l1]; cbn [app] in X; [injection X as -> -> ->; contradiction|].
          injection X as <- ->. left. exists l1, n, l2. auto. }
        right. split; [exact H|]. intros n u I. apply (O n u). right. exact I.
Qed.

(** In an assembler made from a table of instructions and one of directives, a mnemonic
    stands for the last instruction registered under that name; the letters must agree
    exactly where the assembler is case sensitive, and up to case where it is not. *)
Theorem C29_registered : forall p e ops dirs pre post t v,
  dget str_eqb (c_instructions (mk_cfg p e ops dirs pre post)) (op_key (mk_cfg p e ops dirs pre post) t) = Some v <->
  last_entry p ops t v.
Proof.
  intros p e ops dirs pre post t v. unfold mk_cfg, op_key. cbn [c_instructions c_p]. rewrite register_last.
  split; [intros [H|[H _]]; [exact H|discriminate]|auto].
Qed.
Print Assumptions C29_registered.

(** The same for directives: those of the subclass come before the internal ones. *)
Theorem C29_registered_directive : forall p e ops dirs pre post n d,
  names (mk_cfg p e ops dirs pre post) ("."%char :: n) d <->
  last_entry p dirs n d \/ (last_entry p internal_directives n d /\ forall m w, In (m, w) dirs -> ~ spells p m n).
Proof.
  intros p e ops dirs pre post n d. unfold mk_cfg, names. cbn [c_directives c_p skipn]. rewrite register_last, register_last.
  split; intros [H|[H O]]; auto.
  - destruct H as [H|[H _]]; [auto|discriminate].
Qed.
Print Assumptions C29_registered_directive.

(** A case sensitive assembler with two instructions of different case. *)
Definition strict : cfg :=
  mk_cfg (PCfg [] [] [] [] [] [] [] [] true 0 false) demo_env [(#"nop", OStatic [1]); (#"NOP", OStatic [2]); (#"nop", OStatic [3])] [] [] [].
Example C29_registered_example :
  last_entry (c_p strict) [(#"nop", OStatic [1]); (#"NOP", OStatic [2]); (#"nop", OStatic [3])] #"NOP" (OStatic [2]) /\
  dget str_eqb (c_instructions strict) (op_key strict #"NOP") = Some (OStatic [2]) /\
  assembled (fst (assemble strict 5 (lines ["NOP"; "nop"]%string) (init_st []))) = [2; 3] /\
  names strict #".word" D_dw /\ ~ names strict #".WORD" D_dw.
Proof.
  assert (L : last_entry (c_p strict) [(#"nop", OStatic [1]); (#"NOP", OStatic [2]); (#"nop", OStatic [3])] #"NOP" (OStatic [2])).
  { exists [(#"nop", OStatic [1])], #"NOP", [(#"nop", OStatic [3])]. split; [reflexivity|]. split; [reflexivity|].
    intros n w [H|[]]. injection H as <- <-. discriminate. }
  split; [exact L|]. split; [apply C29_registered; exact L|]. split; [vm_compute; reflexivity|]. split; [vm_compute; reflexivity|].
  vm_compute. discriminate.
Qed.

(** The documented names of the directives every assembler has. *)
Definition documented : list (string * directive) :=
  [ ("db", D_db); ("byte", D_db); ("dw", D_dw); ("word", D_dw); ("dd", D_dd); ("dl", D_dd); ("dword", D_dd);
    ("org", D_org); ("fill", D_fill); ("align", D_align); ("goto", D_goto); ("upto", D_upto); ("ram", D_ram);
    ("define", D_define); ("macro", D_macro); ("endmacro", D_endmacro); ("repeat", D_repeat); ("endrepeat", D_endrepeat);
    ("include", D_include); ("incbin", D_incbin); ("inccsv", D_inccsv); ("inccsv_le16", D_inccsv_le16); ("incjson", D_incjson);
    ("section", D_section); ("export", D_export); ("log", D_log);
    ("db_to_ascii", D_db_to_ascii); ("db_to_asciiz", D_db_to_asciiz);
    ("dw_to_ascii", D_dw_to_ascii); ("dw_to_asciiz", D_dw_to_asciiz) ]%string.

Lemma shipped_documented : forall C e, In C shipped -> case_sensitive (c_p (C e)) = false /\
  forall n d, In (n, d) documented -> dget str_eqb (c_directives (C e)) (upper (list_ascii_of_string n)) = Some d.
Proof.
  intros C e I. unfold shipped in I. cbn [In] in I.
  repeat (destruct I as [<-|I]; [split; [lazy; reflexivity|]; intros n d H; unfold documented in H; cbn [In] in H;
    repeat (destruct H as [H|H]; [injection H as <- <-; lazy; reflexivity|]); contradiction|]).
  contradiction.
Qed.

(** In every assembler of the repository each documented name, in any letter case, calls
    its directive. *)
Theorem C29_documented : forall C e n d t, In C shipped -> In (n, d) documented ->
  upper t = upper (list_ascii_of_string n) -> names (C e) ("."%char :: t) d.
Proof.
  intros C e n d t I H U. destruct (shipped_documented C e I) as [CS G]. unfold names. rewrite CS. cbn [skipn]. rewrite U. apply G. exact H.
Qed.
Print Assumptions C29_documented.

Example C29_documented_example : names (z80 (c_env (data_cfg true))) #".Word" D_dw.
Proof. apply (C29_documented z80 _ "word" D_dw #"Word"); [unfold shipped; cbn [In]; auto|unfold documented; cbn [In]; auto 10|reflexivity]. Qed.

(** ** C74: objects and strings in JSON files *)

(** Where the keys lead to an object, one byte is emitted for each of its keys. *)
Theorem C74_json_object : forall c fuel asm t0 op1 op2 op1' op2' name keys key l s doc members vs, names c t0 D_incjson ->
  reads s [op1; op2] [op1'; op2'] -> string_operand op1' name -> string_operand op2' key -> dotted keys key ->
  file_json (c_env c) name = Some doc -> reached_by doc keys (JDict members) ->
  Forall2 (fun x v => number c s (fst x) 8 v /\ 0 <= v < 256) members vs ->
  exists s', statement_assemble c fuel asm (Stmt KDirective [t0; op1; op2] l) s = (s', Ok tt) /\ emitted s vs s'.
Proof.
  intros c fuel asm t0 op1 op2 op1' op2' name keys key l s doc members vs N R S1 S2 D FJ RB F. eexists. split; [|reflexivity].
  rewrite (json_run _ _ _ _ _ _ _ _ _ _ _ _ _ _ _ N R S1 S2 D FJ RB). cbn [json_items]. unfold bind at 1, lift at 1.
  assert (Q : forall acc, json_blob (c_p c) (map (fun '(k, _) => JStr k) members) acc s = (s, Ok (acc ++ vs))).
  { clear - F. induction F as [|[x j] v items vs [E V] F IH]; intros acc; [rewrite app_nil_r; reflexivity|].
    cbn [map]. rewrite (element_step c s (JStr x) v); [|apply el_text; exact E|exact V]. rewrite IH, <- app_assoc. reflexivity. }
  unfold bind at 1. rewrite Q. apply emit_eq.
Qed.
Print Assumptions C74_json_object.

(** Where they lead to a string, one byte for each of its characters. *)
Theorem C74_json_string : forall c fuel asm t0 op1 op2 op1' op2' name keys key l s doc text vs, names c t0 D_incjson ->
  reads s [op1; op2] [op1'; op2'] -> string_operand op1' name -> string_operand op2' key -> dotted keys key ->
  file_json (c_env c) name = Some doc -> reached_by doc keys (JStr text) ->
  Forall2 (fun x v => number c s [x] 8 v /\ 0 <= v < 256) text vs ->
  exists s', statement_assemble c fuel asm (Stmt KDirective [t0; op1; op2] l) s = (s', Ok tt) /\ emitted s vs s'.
Proof.
  intros c fuel asm t0 op1 op2 op1' op2' name keys key l s doc text vs N R S1 S2 D FJ RB F. eexists. split; [|reflexivity].
  rewrite (json_run _ _ _ _ _ _ _ _ _ _ _ _ _ _ _ N R S1 S2 D FJ RB). cbn [json_items]. unfold bind at 1, lift at 1.
  assert (Q : forall acc, json_blob (c_p c) (map (fun x => JStr [x]) text) acc s = (s, Ok (acc ++ vs))).
  { clear - F. induction F as [|x v items vs [E V] F IH]; intros acc; [rewrite app_nil_r; reflexivity|].
    cbn [map]. rewrite (element_step c s (JStr [x]) v); [|apply el_text; exact E|exact V]. rewrite IH, <- app_assoc. reflexivity. }
  unfold bind at 1. rewrite Q. apply emit_eq.
Qed.
Print Assumptions C74_json_string.

Definition keys_cfg : cfg :=
  Cfg (c_p (data_cfg true)) (Env (fun _ => None) (fun _ => None) (fun _ => None)
    (fun n => if str_eqb n #"k.json" then Some (JDict [(#"map", JDict [(#"7", JInt 1); (#"9", JNull)]); (#"t", JStr #"42")]) else None) (fun _ => None))
    [] (c_directives (data_cfg true)) [] [].
Example C74_json_object_example : exists s',
  statement_assemble keys_cfg 5 (fun _ => ret tt) (Stmt KDirective [#".incjson"; #"k.json"; #"map"] 1) (init_st []) = (s', Ok tt) /\
  emitted (init_st []) [7; 9] s'.
Proof.
  eapply (C74_json_object keys_cfg 5 (fun _ => ret tt) #".incjson" #"k.json" #"map" #"k.json" #"map" #"k.json" [#"map"] #"map" 1 (init_st []));
    [reflexivity|exact (reads_self (init_st []) [_; _])|apply so_bare; discriminate|apply so_bare; discriminate| |reflexivity| |].
  - apply dt_last; intros H; vm_compute in H; repeat (destruct H as [H|H]; [discriminate H|]); contradiction.
  - eapply rb_key; [vm_compute; reflexivity|]. apply rb_here.
  - repeat (apply Forall2_cons; [split; [vm_compute; reflexivity|lia]|]). apply Forall2_nil.
Qed.
Example C74_json_string_example : exists s',
  statement_assemble keys_cfg 5 (fun _ => ret tt) (Stmt KDirective [#".incjson"; #"k.json"; #"t"] 1) (init_st []) = (s', Ok tt) /\
  emitted (init_st []) [4; 2] s'.
Proof.
  eapply (C74_json_string keys_cfg 5 (fun _ => ret tt) #".incjson" #"k.json" #"t" #"k.json" #"t" #"k.json" [#"t"] #"t" 1 (init_st []));
    [reflexivity|exact (reads_self (init_st []) [_; _])|apply so_bare; discriminate|apply so_bare; discriminate| |reflexivity| |].
  - apply dt_last; intros H; vm_compute in H; repeat (destruct H as [H|H]; [discriminate H|]); contradiction.
  - eapply rb_key; [vm_compute; reflexivity|]. apply rb_here.
  - repeat (apply Forall2_cons; [split; [vm_compute; reflexivity|lia]|]). apply Forall2_nil.
Qed.

(** ** C34: what the ELF linker notes *)

(** Steps that leave the labels and the notes of the linker alone. *)
Definition aside {A} (m : M A) : Prop := forall s, labels (fst (m s)) = labels s /\ relocations (fst (m s)) = relocations s.

Lemma aside_bind : forall A B (m : M A) (f : A -> M B), aside m -> (forall a, aside (f a)) -> aside (bind m f).
Proof.
  intros A B m f Hm Hf s. unfold bind. specialize (Hm s). destruct (m s) as [s1 [a|x]]; cbn [fst] in *; [|exact Hm].
  destruct (Hf a s1) as [-> ->]. exact Hm.
Qed.
Lemma aside_patch : forall be a n v k i, aside (patch_loop be a n v i k).
Proof.
  intros be a n v. induction k as [|k IH]; intros i s; [split; reflexivity|]. cbn [patch_loop]. unfold bind, get, lift, modify.
  set (x := if be then _ else _). destruct (at_index (assembled s) x) as [o|er]; [|split; reflexivity].
  destruct (set_index (assembled s) x _) as [out|er]; [|split; reflexivity].
  exact (IH _ (set_assembled s out)).
Qed.
Lemma aside_rest : forall p a d v abs, aside (match ld_hook d with
  | Some h => apply_hook h a v
  | None =>
      let! absolute := (match abs with Some a => ret a | None => praise TypeError end) in
      if ld_alignment d =? 0 then praise ZeroDivisionError else
      if negb (absolute mod ld_alignment d =? 0) then araise (AlignmentError (ld_label d)) else
      if negb (negb (ld_relative d =? 0)) && (v <? 0)
      then araise (OnlyForwardAddressesAllowed (ld_label d) v) else
      if negb (in_bit_range_decimal v (ld_bits_size d) (negb (ld_relative d =? 0)))
      then araise (NotInBitRange v (ld_bits_size d) (Some (ld_label d))) else
      let v := match ld_filter d with Some f => f v | None => v end in
      let! v := (match ld_bits d with Some bits => lift (pack_bits 0 [(bits, v)]) | None => ret v end) in
      patch_loop (big_endian p) a (ld_size d) v 0 (Z.to_nat (ld_size d))
  end).
Proof.
  intros p a d v abs. destruct (ld_hook d) as [h|].
  - intros s. unfold apply_hook. destruct (h a v (assembled s)). split; reflexivity.
  - apply aside_bind; [destruct abs; intros s; split; reflexivity|]. intros z.
    destruct (ld_alignment d =? 0); [intros s; split; reflexivity|]. destruct (negb (z mod _ =? 0)); [intros s; split; reflexivity|].
    destruct (negb (negb _) && _); [intros s; split; reflexivity|]. destruct (negb (in_bit_range_decimal _ _ _)); [intros s; split; reflexivity|].
    cbv zeta. apply aside_bind; [destruct (ld_bits d) as [b|]; [intros s; unfold lift; destruct (pack_bits _ _)|intros s]; split; reflexivity|].
    intros w. apply aside_patch.
Qed.

Lemma relative_only : forall p lbls t start, label_relative p lbls t start = Ok None -> label_absolute p lbls t = Ok None.
Proof.
  intros p lbls t start H. unfold label_relative, label_absolute, label_by_name_with in *.
  destruct (get_math_formula t) as [[n sel] post]. destruct (dget str_eqb lbls n); auto.
  destruct (apply_math_formula _ _ _ _ _ _); discriminate.
Qed.

(** The notes after one reference. *)
Definition unresolved (p : pcfg) (lbls : list (str * label)) (d : labeldata) : bool :=
  match label_absolute p lbls (ld_label d) with Ok None => true | _ => false end.
Lemma resolve_notes : forall p e a d s s', resolve_one p (elf_linker e) a d s = (s', Ok tt) ->
  labels s' = labels s /\ relocations s' = (if unresolved p (labels s) d then dset Z.eqb (relocations s) a d else relocations s).
Proof.
  intros p e a d s s' H. unfold resolve_one, m_label_absolute in H. unfold bind at 1 in H. unfold unresolved.
  destruct (label_absolute p (labels s) (ld_label d)) as [ab|x] eqn:A; [|discriminate H].
  set (ta := (if negb (ld_relative d =? 0) then _ else _) : M (option Z)) in H.
  assert (T : ta s = (s, snd (ta s))) by (unfold ta; destruct (negb _); reflexivity).
  unfold bind at 1 in H. rewrite T in H. destruct (snd (ta s)) as [[v|]|x] eqn:V; [| |discriminate H].
  - unfold bind at 1, ret at 1 in H. cbv beta iota in H.
    assert (K : labels s' = labels s /\ relocations s' = relocations s)
      by (change s' with (fst (s', @Ok unit tt)); rewrite <- H; exact (aside_rest p a d v ab s)).
    destruct ab; [exact K|]. exfalso. unfold ta in V. destruct (negb _); cbn [snd ret] in V; [|discriminate V].
    rewrite (relative_none _ _ _ _ A) in V. discriminate V.
  - assert (ab = None) as ->.
    { unfold ta in V. destruct (negb _); cbn [snd ret] in V; [|injection V as ->; reflexivity].
      apply relative_only in V. congruence. }
    unfold bind at 1 in H. set (s1 := set_linker s (elf_header s) (dset Z.eqb (relocations s) a d)).
    change ((let! v := lk_resolve (elf_linker e) a d in ret (v, Some v)) s) with (s1, Ok (0, Some 0)) in H. cbv beta iota in H.
    assert (K : labels s' = labels s1 /\ relocations s' = relocations s1)
      by (change s' with (fst (s', @Ok unit tt)); rewrite <- H; exact (aside_rest p a d 0 (Some 0) s1)).
    exact K.
Qed.

Lemma iter_notes : forall p e l s s', iter (fun '(a, d) => resolve_one p (elf_linker e) a d) l s = (s', Ok tt) ->
  NoDup (map fst l) -> forall a d, dget Z.eqb (relocations s') a = Some d <->
  (In (a, d) l /\ unresolved p (labels s) d = true) \/
  (dget Z.eqb (relocations s) a = Some d /\ forall d', In (a, d') l -> unresolved p (labels s) d' = false).
Proof.
  intros p e. induction l as [|[b x] l IH]; intros s s' H ND a d.
  - injection H as ->. split; [intros H; right; split; [exact H|intros d' []]|]. intros [[[] _]|[H _]]; exact H.
  - cbn [iter] in H. unfold bind at 1 in H.
    destruct (resolve_one p (elf_linker e) b x s) as [s1 [[]|er]] eqn:R; [|discriminate H].
    apply resolve_notes in R. destruct R as [L N]. cbn [map fst] in ND. apply NoDup_cons_iff in ND. destruct ND as [NI ND].
    rewrite (IH _ _ H ND a d), L, N. clear IH H.
    assert (E : forall d', In (b, d') l -> False) by (intros d' I; apply NI; apply (in_map fst) in I; exact I).
    destruct (unresolved p (labels s) x) eqn:U.
    + rewrite (PyFacts.dget_dset Z.eqb Z.eqb_eq). destruct (a =? b) eqn:AB.
      * apply Z.eqb_eq in AB. subst b. split.
        { intros [[I _]|[K _]]; [destruct (E _ I)|]. injection K as ->. left. split; [left; reflexivity|exact U]. }
        intros [[[K|I] _]|[_ K]]; [injection K as ->|destruct (E _ I)|].
        { right. split; [reflexivity|]. intros d' I. destruct (E _ I). }
        specialize (K x (or_introl eq_refl)). congruence.
      * apply Z.eqb_neq in AB. split.
        { intros [[I K]|[K O]]; [left; split; [right; exact I|exact K]|right]. split; [exact K|].
          intros d' [Q|I]; [congruence|exact (O d' I)]. }
        intros [[[K|I] Q]|[K O]]; [congruence|left; split; assumption|right]. split; [exact K|]. intros d' I. apply O. right. exact I.
    + split.
      * intros [[I K]|[K O]]; [left; split; [right; exact I|exact K]|right]. split; [exact K|].
        intros d' [Q|I]; [injection Q as -> ->; exact U|exact (O d' I)].
      * intros [[[K|I] Q]|[K O]]; [congruence|left; split; assumption|right]. split; [exact K|]. intros d' I. apply O. right. exact I.
Qed.

Lemma head_undefined : forall p lbls d name, head_of (ld_label d) name -> unresolved p lbls d = true <-> dget str_eqb lbls name = None.
Proof.
  intros p lbls d name H. unfold unresolved. split.
  - destruct (head_formula _ _ H) as (sel & post & G). unfold label_absolute, label_by_name_with. rewrite G.
    destruct (dget str_eqb lbls name) as [x|]; [|reflexivity]. destruct (apply_math_formula _ _ _ _ _ _); discriminate.
  - intros D. rewrite (head_none p lbls _ _ H D). reflexivity.
Qed.

(** After a successful link the relocations of the ELF linker hold exactly the references
    to names that were never defined, each under its place in the output. *)
Theorem C34_noted : forall c e s s' a d name, no_passes c -> NoDup (map fst (labels_addresses s)) -> relocations s = [] ->
  link c (elf_linker e) s = (s', Ok tt) -> head_of (ld_label d) name ->
  (dget Z.eqb (relocations s') a = Some d <-> In (a, d) (labels_addresses s) /\ dget str_eqb (labels s) name = None).
Proof.
  intros c e s s' a d name [P1 P2] ND NR H HD. unfold link in H. rewrite P1, P2 in H. cbn [iter] in H. unfold bind, ret in H.
  unfold resolve_labels, bind, get in H.
  destruct (iter _ (labels_addresses s) s) as [s1 [[]|er]] eqn:I; [|discriminate H].
  pose proof (iter_notes _ _ _ _ _ I ND a d) as K. rewrite NR, (head_undefined _ _ _ _ HD) in K.
  cbn [lk_link elf_linker] in H. unfold elf_link, bind, get, lift, modify, ret in H.
  destruct (elf_link_bytes e s1) as [[hd out]|er]; [|discriminate H]. injection H as <-.
  cbn [relocations set_assembled set_linker]. rewrite K. split; [intros [Q|[Q _]]; [exact Q|discriminate]|auto].
Qed.
Print Assumptions C34_noted.

(** References with bytes of their own have places of their own. *)
Lemma tidy_places : forall s, tidy s -> NoDup (map fst (labels_addresses s)).
Proof.
  intros s (ivs & O & R & P). revert R P. induction O as [|r iv l ivs [F _] O IH]; intros R P; cbn [map]; [apply NoDup_nil|].
  inversion R as [|? ? R0 R1]; subst. inversion P as [|? ? P0 P1]; subst. apply NoDup_cons; [|exact (IH R1 P1)].
  intros I. apply in_map_iff in I. destruct I as (r' & E & I).
  assert (X : exists iv', In iv' ivs /\ fst iv' = fst r').
  { clear - O I. induction O as [|x y l l' [F _] O IH]; [contradiction|]. destruct I as [->|I]; [exists y; split; [left; reflexivity|exact F]|].
    destruct (IH I) as (z & Z1 & Z2). exists z. split; [right; exact Z1|exact Z2]. }
  destruct X as (iv' & I' & E'). rewrite Forall_forall in P0, R1. specialize (P0 _ I'). specialize (R1 _ I'). unfold apart in P0.
  destruct P0; lia.
Qed.

(** In what the ELF platforms build, this holds for every program. *)
Theorem C71_noted : forall v main c e is64 be machine fuel sources s s' a d name,
  elf_platform v main c e is64 be machine -> byte_files c -> assembled_files c fuel sources (init_st []) s ->
  link c (elf_linker e) (with_elf e s) = (s', Ok tt) -> head_of (ld_label d) name ->
  (dget Z.eqb (relocations s') a = Some d <-> In (a, d) (labels_addresses s) /\ dget str_eqb (labels s) name = None).
Proof.
  intros v main c e is64 be machine fuel sources s s' a d name P B A L HD.
  destruct (platform_fits _ _ _ _ _ _ _ P) as (F & N & NP & (h & ID) & _).
  destruct (files_sane _ _ _ _ _ F N B (sane_init []) A) as (T & _).
  apply (C34_noted c e (with_elf e s) s' a d name NP); [exact (tidy_places s T)|unfold with_elf; rewrite ID; reflexivity|exact L|exact HD].
Qed.
Print Assumptions C71_noted.

Definition lost_env : env :=
  Env (fun n => if str_eqb n #"i.s" then Some (lines [".section .text RX"; "here:"; "jmp here"; "jmp nowhere"]%string) else None)
      (fun _ => None) (fun _ => None) (fun _ => None) (fun _ => None).
Example C71_noted_example :
  let s := fst (assemble_file (i8086 lost_env) 5 #"i.s" (init_st [])) in
  let s' := fst (link (i8086 lost_env) (elf_linker i386_elf32) (with_elf i386_elf32 s)) in
  elf_platform lost_env (i386_main lost_env) (i8086 lost_env) i386_elf32 false false 3 /\ byte_files (i8086 lost_env) /\
  assembled_files (i8086 lost_env) 5 [#"i.s"] (init_st []) s /\
  link (i8086 lost_env) (elf_linker i386_elf32) (with_elf i386_elf32 s) = (s', Ok tt) /\
  map (fun x => (fst x, ld_label (snd x))) (relocations s') = [(4, #"nowhere")].
Proof.
  cbv zeta. split; [constructor|]. split; [intros n b H; discriminate H|].
  split; [eapply assembled_one; [reflexivity|vm_compute; reflexivity]|].
  assert (E : snd (link (i8086 lost_env) (elf_linker i386_elf32) (with_elf i386_elf32 (fst (assemble_file (i8086 lost_env) 5 #"i.s" (init_st []))))) = Ok tt)
    by (vm_compute; reflexivity).
  split; [rewrite <- E; apply surjective_pairing|vm_compute; reflexivity].
Qed.

Example C34_noted_example :
  let s := elf_state i386_elf32 [".section .text RX"; "here:"; "ldi here"; "ldi nowhere"]%string in
  let s' := fst (link demo (elf_linker i386_elf32) s) in
  relocations s = [] /\ NoDup (map fst (labels_addresses s)) /\ snd (link demo (elf_linker i386_elf32) s) = Ok tt /\
  map (fun x => (fst x, ld_label (snd x))) (relocations s') = [(4, #"nowhere")].
Proof.
  cbv zeta. split; [vm_compute; reflexivity|]. split; [|split; vm_compute; reflexivity].
  vm_compute. repeat (apply NoDup_cons; [intros H; repeat (destruct H as [H|H]; [discriminate H|]); contradiction|]). apply NoDup_nil.
Qed.

(** ** C06: empty suffixes *)

(** The suffixes of a table that have a character. *)
Definition written (l : list str) : list str := filter (fun x => match x with [] => false | _ => true end) l.

(** An empty suffix in a table marks no number: token[:-0] is the empty string. *)
Theorem C06_empty_suffix : forall p token,
  parse_number p token =
  parse_number (PCfg (hex_prefixes p) (written (hex_suffixes p)) (bin_prefixes p) (written (bin_suffixes p))
    (oct_prefixes p) (written (oct_suffixes p)) (dec_prefixes p) (written (dec_suffixes p))
    (case_sensitive p) (fill_value p) (big_endian p)) token.
Proof.
  intros p token.
  assert (W : forall l base dec k, try_suffixes l base dec token k = try_suffixes (written l) base dec token k).
  { induction l as [|x l IH]; intros base dec k; [reflexivity|]. destruct x as [|c x].
    - cbn [written filter try_suffixes length slice_suffix isdigit]. rewrite Bool.andb_false_r. apply IH.
    - change (written ((c :: x) :: l)) with ((c :: x) :: written l). cbn [try_suffixes]. rewrite IH. reflexivity. }
  unfold parse_number. cbn [hex_prefixes hex_suffixes bin_prefixes bin_suffixes oct_prefixes oct_suffixes dec_prefixes dec_suffixes].
  rewrite (W (hex_suffixes p)), (W (bin_suffixes p)), (W (oct_suffixes p)), (W (dec_suffixes p)). reflexivity.
Qed.
Print Assumptions C06_empty_suffix.

Example C06_empty_suffix_example :
  let p l := PCfg [] l [] [] [] [] [] [] false 0 false in
  parse_number (p [#""; #"h"]) #"12" = Ok (Some 12, true) /\ parse_number (p [#""; #"h"]) #"12h" = Ok (Some 18, false).
Proof. split; vm_compute; reflexivity. Qed.
