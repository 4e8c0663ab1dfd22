(** C83: a definition or macro that is not used changes nothing else. *)
From Verif Require Import Py PyFacts Utils Tokenizer State Assembler SpecExec SpecSubst SubstFacts Mos6502 Mc68000 Mips32 Lr35902 Z80 Thumb Ppc I8086 X86
  Platform SpecHost Demo SpecSpare SpareFacts SpareCpu PropsExec.
Local Open Scope Z_scope.

(** Statements that use none of the names do the same, whatever the names mean. *)
Theorem C83_statements : forall X c fuel ss, proper X -> blind_plugins c -> files_lack X c -> Forall (stmt_lacks X) ss ->
  indifferent X c (exec c fuel ss).
Proof. intros X c fuel ss XP HC HF L. apply dat_indifferent. intros. apply dat_exec; assumption. Qed.

(** The text of a program, with the files it includes. *)
Theorem C83_assemble : forall X c fuel text, proper X -> blind_plugins c -> files_lack X c -> text_lacks X text ->
  indifferent X c (assemble c fuel text).
Proof. intros X c fuel text XP HC HF L. apply dat_indifferent. intros. apply dat_assemble; assumption. Qed.

(** Assembled and linked. *)
Theorem C83_build : forall X c fuel text, proper X -> blind_plugins c -> files_lack X c -> text_lacks X text ->
  indifferent X c (assemble c fuel text ;; link c dummy_linker).
Proof.
  intros X c fuel text XP HC HF L. apply dat_indifferent. intros. apply dat_bind; [apply dat_assemble; assumption|].
  intros. apply dat_link. exact HC.
Qed.

(** Every shipped assembler. *)
Theorem C83_shipped : forall C e, In C shipped -> blind_plugins (C e).
Proof. exact shipped_blind. Qed.

Lemma exec_app : forall c fuel us vs u, exec c fuel (us ++ vs) u =
  match exec c fuel us u with (v, Ok _) => exec c fuel vs v | (v, Err e) => (v, Err e) end.
Proof.
  unfold exec. intros c fuel us vs. induction us as [|a us IH]; intros u; [reflexivity|]. cbn [app iter]. unfold bind.
  destruct (statement_assemble _ _ _ a u) as [v [[]|e]]; [apply IH|reflexivity].
Qed.

(** Something that only adds definitions and macros, put between two statements. *)
Lemma inserted : forall X c fuel xs zs ys s t D N, proper X -> blind_plugins c -> files_lack X c -> Forall (stmt_lacks X) (xs ++ ys) ->
  unused X c s -> exec c fuel xs s = (t, Ok tt) -> exec c fuel zs t = (put t D N, Ok tt) -> else_same X c t D N ->
  let plain := (exec c fuel (xs ++ ys) ;; link c dummy_linker) s in
  exists D' N', else_same X c (fst plain) D' N' /\
    (exec c fuel (xs ++ zs ++ ys) ;; link c dummy_linker) s = (put (fst plain) D' N', snd plain) /\
    (D = defines t -> D' = defines (fst plain)) /\ (N = macros t -> N' = macros (fst plain)).
Proof.
  intros X c fuel xs zs ys s t D N XP HC HF L U EX EZ S plain. apply Forall_app in L. destruct L as [LX LY].
  assert (UT : unused X c t).
  { destruct (C83_statements X c fuel xs XP HC HF LX s (defines s) (macros s) U) as [UT _]; [split; reflexivity|]. rewrite EX in UT. exact UT. }
  assert (H : indifferent X c (exec c fuel ys ;; link c dummy_linker)).
  { apply dat_indifferent. intros. apply dat_bind; [apply dat_exec; assumption|]. intros. apply dat_link. exact HC. }
  assert (E1 : plain = (exec c fuel ys ;; link c dummy_linker) t) by (unfold plain, bind; rewrite exec_app, EX; reflexivity).
  assert (E2 : (exec c fuel (xs ++ zs ++ ys) ;; link c dummy_linker) s = (exec c fuel ys ;; link c dummy_linker) (put t D N))
    by (unfold bind; rewrite !exec_app, EX, exec_app, EZ; reflexivity).
  rewrite E1, E2. destruct (H t D N UT S) as (_ & D' & N' & R). exists D', N'. exact R.
Qed.

(** A definition put between two statements of a program that uses its name nowhere: same result, same image, same everything but
    this one definition. *)
Theorem C83_define : forall C e fuel xs ys t0 op1 op2 n v l s t, In C shipped -> let c := C e in let X := eq n in
  proper X -> files_lack X c -> Forall (stmt_lacks X) (xs ++ ys) -> unused X c s ->
  exec c fuel xs s = (t, Ok tt) -> names c t0 D_define -> reads t [op1; op2] [n; v] ->
  let plain := (exec c fuel (xs ++ ys) ;; link c dummy_linker) s in
  exists D, (forall k, k <> n -> dget str_eqb D k = dget str_eqb (defines (fst plain)) k) /\
    (exec c fuel (xs ++ Stmt KDirective [t0; op1; op2] l :: ys) ;; link c dummy_linker) s = (set_defines (fst plain) D, snd plain).
Proof.
  intros C e fuel xs ys t0 op1 op2 n v l s t IC c X XP HF L U EX NM RD plain.
  destruct (inserted X c fuel xs [Stmt KDirective [t0; op1; op2] l] ys s t (dset str_eqb (defines t) n v) (macros t) XP
    (shipped_blind C e IC) HF L U EX) as (D & N & (S & _) & E & _ & EN).
  - unfold exec. cbn [iter]. unfold bind. rewrite (directive_run _ _ _ _ _ _ _ t _ NM RD). destruct t. reflexivity.
  - split; [|reflexivity]. intros k NX. rewrite (dget_dset_other str_eqb str_eqb_eq); [reflexivity|]. intros ->. apply NX. reflexivity.
  - exists D. split.
    + intros k NK. apply S. intros Q. apply NK. symmetry. exact Q.
    + change (Stmt KDirective [t0; op1; op2] l :: ys) with ([Stmt KDirective [t0; op1; op2] l] ++ ys). rewrite E. unfold put.
      rewrite (EN eq_refl). fold plain. destruct (fst plain). reflexivity.
Qed.

(** The names that call the same macro. *)
Definition calls (c : cfg) (n : str) : str -> Prop := fun w => op_key c w = op_key c n.

Lemma record_body : forall c fuel key bs t m, Forall (fun x => s_kind x = KInstruction) bs ->
  macro_recording t = Some key -> dget str_eqb (macros t) key = Some m ->
  exists N, exec c fuel bs t = (set_macros t N, Ok tt) /\ dget str_eqb N key = Some (MkMacro (m_args m) (m_body m ++ bs)) /\
    forall k, k <> key -> dget str_eqb N k = dget str_eqb (macros t) k.
Proof.
  intros c fuel key bs. induction bs as [|[kd tk ln] bs IH]; intros t m F MR DM.
  - exists (macros t). split; [destruct t; reflexivity|]. split; [|reflexivity]. rewrite app_nil_r, DM. destruct m; reflexivity.
  - inversion F as [|? ? K F']. cbn [s_kind] in K. subst.
    set (m' := MkMacro (m_args m) (m_body m ++ [Stmt KInstruction tk ln])).
    assert (E : forall asm, statement_assemble c fuel asm (Stmt KInstruction tk ln) t = (set_macros t (dset str_eqb (macros t) key m'), Ok tt)).
    { intros asm. unfold statement_assemble. cbn [s_kind s_tokens s_line]. destruct fuel; cbn [instruction_assemble]; unfold bind, get; rewrite MR;
        unfold modify; rewrite DM; reflexivity. }
    destruct (IH (set_macros t (dset str_eqb (macros t) key m')) m' F' MR) as (N & E2 & D2 & O).
    { cbn [macros set_macros]. apply (dget_dset_same str_eqb str_eqb_eq). }
    exists N. split; [|split].
    + unfold exec in *. cbn [iter]. unfold bind at 1. rewrite E. rewrite E2. reflexivity.
    + rewrite D2. unfold m'. cbn [m_args m_body]. rewrite <- app_assoc. reflexivity.
    + intros k NK. rewrite O by exact NK. cbn [macros set_macros]. apply (dget_dset_other str_eqb str_eqb_eq). exact NK.
Qed.

(** A macro put between two statements of a program that calls it nowhere. *)
Theorem C83_macro : forall C e fuel xs ys bs tm te name n params params' l l' s t, In C shipped -> let c := C e in let X := calls c n in
  proper X -> files_lack X c -> Forall (stmt_lacks X) (xs ++ ys) -> unused X c s ->
  exec c fuel xs s = (t, Ok tt) -> macro_recording t = None -> names c tm D_macro -> names c te D_endmacro ->
  reads t (name :: params) (n :: params') -> Forall (fun x => s_kind x = KInstruction) bs ->
  let block := Stmt KDirective (tm :: name :: params) l :: bs ++ [Stmt KDirective [te] l'] in
  let plain := (exec c fuel (xs ++ ys) ;; link c dummy_linker) s in
  exists N, (forall k, op_key c k <> op_key c n -> dget str_eqb N (op_key c k) = dget str_eqb (macros (fst plain)) (op_key c k)) /\
    (exec c fuel (xs ++ block ++ ys) ;; link c dummy_linker) s = (set_macros (fst plain) N, snd plain).
Proof.
  intros C e fuel xs ys bs tm te name n params params' l l' s t IC c X XP HF L U EX MR NM NE RD FB block plain.
  assert (B : exists N, exec c fuel block t = (put t (defines t) N, Ok tt) /\ forall k, k <> op_key c n -> dget str_eqb N k = dget str_eqb (macros t) k).
  { set (u := set_macro_recording (set_macros t (dset str_eqb (macros t) (op_key c n) (MkMacro params' []))) (Some (op_key c n))).
    destruct (record_body c fuel (op_key c n) bs u (MkMacro params' []) FB eq_refl) as (N & E & _ & O).
    { cbn [u macros set_macros set_macro_recording]. apply (dget_dset_same str_eqb str_eqb_eq). }
    exists N. split.
    - unfold block. change (Stmt KDirective (tm :: name :: params) l :: bs ++ [Stmt KDirective [te] l']) with
        ([Stmt KDirective (tm :: name :: params) l] ++ bs ++ [Stmt KDirective [te] l']).
      rewrite exec_app. assert (E1 : exec c fuel [Stmt KDirective (tm :: name :: params) l] t = (u, Ok tt)).
      { unfold exec. cbn [iter]. unfold bind at 1. rewrite (directive_run _ _ _ _ _ _ _ t _ NM RD). cbn [run_directive].
        unfold macro_start, bind, get. rewrite MR. reflexivity. }
      rewrite E1, exec_app, E. unfold exec. cbn [iter]. unfold bind at 1.
      rewrite (directive_run c fuel _ te [] l' D_endmacro (set_macros u N) [] NE (Forall2_nil _)). cbn [run_directive].
      unfold macro_end, bind, get. cbn [u macro_recording set_macros set_macro_recording]. unfold modify, put, ret. f_equal.
      destruct t. cbn in MR. subst. reflexivity.
    - intros k NK. rewrite O by exact NK. cbn [u macros set_macros set_macro_recording]. apply (dget_dset_other str_eqb str_eqb_eq). exact NK. }
  destruct B as (N & EB & O).
  destruct (inserted X c fuel xs block ys s t (defines t) N XP (shipped_blind C e IC) HF L U EX EB) as (D & N' & (_ & S) & E & ED & _).
  - split; [reflexivity|]. intros k NX. apply O. exact NX.
  - exists N'. split; [exact S|]. rewrite E. unfold put. rewrite (ED eq_refl). fold plain. destruct (fst plain). reflexivity.
Qed.

(** The names are proper if the one given is made of letters, digits, underscores and dots. *)
Lemma upper_name : forall ch, name_char (upper_chr ch) <-> name_char ch.
Proof.
  intros ch. rewrite <- !valid_name_char_spec. destruct ch as [[] [] [] [] [] [] [] []]; vm_compute; tauto.
Qed.
Lemma proper_one : forall n, n <> [] -> Forall name_char n -> proper (eq n).
Proof. intros n NE F w <-. auto. Qed.
Lemma proper_calls : forall c n, n <> [] -> Forall name_char n -> proper (calls c n).
Proof.
  intros c n NE F w. unfold calls, op_key. destruct (case_sensitive (c_p c)); [intros ->; auto|]. unfold upper. revert w NE F.
  assert (G : forall z w, map upper_chr w = map upper_chr z -> Forall name_char z -> Forall name_char w).
  { induction z as [|a r IH]; intros [|b w] E F; cbn [map] in E; try discriminate; constructor; injection E as E1 E2; inversion F; subst.
    - apply upper_name. rewrite E1. apply upper_name. assumption.
    - auto. }
  intros w NE F E. split; [|eapply G; eauto]. intros ->. destruct n; [contradiction|discriminate].
Qed.

(** ** Cases *)

(** The words of a token, computed. *)
Fixpoint cut (acc s : str) : list chunk :=
  match s with
  | [] => pending acc []
  | ch :: t => if valid_name_char ch then cut (acc ++ [ch]) t else pending acc (Other ch :: cut [] t)
  end.
Lemma cut_chunks : forall s acc, Forall name_char acc -> chunks_of (acc ++ s) (cut acc s).
Proof.
  assert (P : forall acc ks, Forall name_char acc -> Forall chunk_ok ks -> maximal ks -> (forall w t, ks <> Name w :: t) ->
    chunks_of (acc ++ flat_map chunk_text ks) (pending acc ks)).
  { intros acc ks F O MX H. destruct acc as [|a acc]; [repeat split; assumption|]. cbn [pending]. split; [|split].
    - constructor; [split; [discriminate|exact F]|exact O].
    - destruct ks as [|[w|ch] ks]; [exact I|exfalso; eapply H; reflexivity|exact MX].
    - reflexivity. }
  induction s as [|ch s IH]; intros acc F; cbn [cut].
  - apply (P acc []); auto; try constructor. discriminate.
  - destruct (valid_name_char ch) eqn:V.
    + replace (acc ++ ch :: s) with ((acc ++ [ch]) ++ s) by (rewrite <- app_assoc; reflexivity). apply IH.
      apply Forall_app. split; [exact F|]. constructor; [apply valid_name_char_spec; exact V|constructor].
    + destruct (IH [] (Forall_nil _)) as (O & MX & T). cbn [app] in T. rewrite T at 1.
      apply (P acc (Other ch :: cut [] s)); auto; [|discriminate]. constructor; [apply valid_name_char_false; exact V|exact O].
Qed.
Definition clear_of (b : str -> bool) (t : str) : bool := forallb (fun k => match k with Name w => negb (b w) | Other _ => true end) (cut [] t).
Lemma clear_lacks : forall (X : str -> Prop) b t, (forall w, X w -> b w = true) -> clear_of b t = true -> lacks X t.
Proof.
  intros X b t H E ks w C I XW. pose proof (cut_chunks t [] (Forall_nil _)) as C'. cbn [app] in C'. rewrite (chunks_unique _ _ _ C C') in I.
  unfold clear_of in E. rewrite forallb_forall in E. specialize (E _ I). cbn in E. rewrite (H w XW) in E. discriminate.
Qed.
Definition stmts_clear (b : str -> bool) (ss : list stmt) : bool := forallb (fun x => forallb (clear_of b) (s_tokens x)) ss.
Lemma stmts_lack : forall (X : str -> Prop) b ss, (forall w, X w -> b w = true) -> stmts_clear b ss = true -> Forall (stmt_lacks X) ss.
Proof.
  intros X b ss H E. unfold stmts_clear in E. rewrite forallb_forall in E. apply Forall_forall. intros x I. specialize (E x I).
  rewrite forallb_forall in E. apply Forall_forall. intros t IT. eapply clear_lacks; eauto.
Qed.

(** An included file, a definition, a macro and its call. *)
Definition c83_file : str := lines ["LD B,SIZE"]%string.
Definition c83_env : env := Env (fun n => if str_eqb n #"part.s" then Some c83_file else None) (fun _ => None) (fun _ => None) (fun _ => None) (fun _ => None).
Definition c83_cfg : cfg := lr35902 c83_env.
Definition c83_xs : list stmt := [Stmt KDirective [#".define"; #"SIZE"; #"16"] 1; Stmt KDirective [#".macro"; #"put"; #"x"] 2;
  Stmt KInstruction [#"LD"; #"A"; #"x"] 3; Stmt KDirective [#".endmacro"] 4].
Definition c83_ys : list stmt := [Stmt KInstruction [#"PUT"; #"SIZE+1"] 5; Stmt KLabel [#"here"] 6; Stmt KDirective [#".include"; #"part.s"] 7;
  Stmt KInstruction [#"JP"; #"here"] 8].
Definition c83_text : str := lines [".define SIZE 16"; ".macro put x"; "LD A,x"; ".endmacro"; "PUT SIZE+1"; "here:"; ".include part.s"; "JP here"]%string.
Definition is_spare (w : str) : bool := str_eqb (upper w) #"SPARE".
Lemma spare_one : forall w, #"SPARE" = w -> is_spare w = true.
Proof. intros w <-. reflexivity. Qed.
Lemma spare_calls : forall w, calls c83_cfg #"Spare" w -> is_spare w = true.
Proof. intros w E. unfold is_spare. apply str_eqb_eq. exact E. Qed.
Lemma c83_proper1 : proper (eq #"SPARE").
Proof. apply proper_one; [discriminate|]. repeat (apply Forall_cons; [apply valid_name_char_spec; vm_compute; reflexivity|]). apply Forall_nil. Qed.
Lemma c83_proper2 : proper (calls c83_cfg #"Spare").
Proof. apply proper_calls; [discriminate|]. repeat (apply Forall_cons; [apply valid_name_char_spec; vm_compute; reflexivity|]). apply Forall_nil. Qed.
Lemma c83_files : forall (X : str -> Prop), (forall w, X w -> is_spare w = true) -> files_lack X c83_cfg.
Proof.
  intros X H name code E ss T. cbn [c83_cfg lr35902 mk_cfg c_env c83_env file_text] in E. destruct (str_eqb name #"part.s"); [|discriminate].
  injection E as <-. assert (Q : tokenize c83_file = Ok [Stmt KInstruction [#"LD"; #"B"; #"SIZE"] 1]) by (vm_compute; reflexivity).
  rewrite Q in T. injection T as <-. eapply stmts_lack; [exact H|]. vm_compute. reflexivity.
Qed.
Lemma c83_statements : forall (X : str -> Prop), (forall w, X w -> is_spare w = true) -> Forall (stmt_lacks X) (c83_xs ++ c83_ys).
Proof. intros X H. eapply stmts_lack; [exact H|]. vm_compute. reflexivity. Qed.
Lemma c83_texts : forall (X : str -> Prop), (forall w, X w -> is_spare w = true) -> text_lacks X c83_text.
Proof.
  intros X H ss T. assert (E : stmts_clear is_spare ss = true).
  { change ss with (match Ok ss with Ok x => x | Err _ => [] end). rewrite <- T. vm_compute. reflexivity. }
  eapply stmts_lack; eauto.
Qed.
Lemma c83_unused : forall X c, unused X c (init_st []).
Proof. intros X c. split; [|split]; intros; discriminate. Qed.
Definition c83_mid : st := fst (exec c83_cfg 3 c83_xs (init_st [])).
Lemma c83_ran : exec c83_cfg 3 c83_xs (init_st []) = (c83_mid, Ok tt).
Proof.
  assert (R : snd (exec c83_cfg 3 c83_xs (init_st [])) = Ok tt) by (vm_compute; reflexivity). unfold c83_mid.
  destruct (exec c83_cfg 3 c83_xs (init_st [])) as [u r]. cbn [fst snd] in *. subst. reflexivity.
Qed.
Lemma c83_in : In lr35902 shipped.
Proof. right. left. reflexivity. Qed.
Lemma c83_name : forall t d, dget str_eqb (c_directives c83_cfg) (upper (skipn 1 t)) = Some d -> names c83_cfg t d.
Proof. intros t d H. exact H. Qed.
Lemma c83_defines : defines c83_mid = [(#"SIZE", #"16")].
Proof. vm_compute. reflexivity. Qed.
Lemma c83_reads : forall ops, map (subst_token [(#"SIZE", #"16")]) ops = ops -> reads c83_mid ops ops.
Proof.
  intros ops. unfold reads. rewrite c83_defines. generalize [(#"SIZE", #"16")]. intros D.
  induction ops as [|o ops IH]; intros H; [constructor|]. cbn [map] in H. injection H as H1 H2. constructor; [|exact (IH H2)].
  pose proof (subst_token_substituted D o) as G. rewrite H1 in G. exact G.
Qed.
Definition c83_body : list stmt := [Stmt KInstruction [#"bogus"; #"y"] 6].
Lemma c83_body_ok : Forall (fun x => s_kind x = KInstruction) c83_body.
Proof. repeat constructor. Qed.
Lemma c83_idle : macro_recording c83_mid = None.
Proof. vm_compute. reflexivity. Qed.
Lemma c83_t1 : names c83_cfg #".define" D_define. Proof. apply c83_name. vm_compute. reflexivity. Qed.
Lemma c83_t2 : names c83_cfg #".macro" D_macro. Proof. apply c83_name. vm_compute. reflexivity. Qed.
Lemma c83_t3 : names c83_cfg #".endmacro" D_endmacro. Proof. apply c83_name. vm_compute. reflexivity. Qed.
Lemma c83_r1 : reads c83_mid [#"SPARE"; #"(2"] [#"SPARE"; #"(2"]. Proof. apply c83_reads. vm_compute. reflexivity. Qed.
Lemma c83_r2 : reads c83_mid [#"Spare"; #"y"] [#"Spare"; #"y"]. Proof. apply c83_reads. vm_compute. reflexivity. Qed.

Example C83_define_case := C83_define lr35902 c83_env 3 c83_xs c83_ys #".define" #"SPARE" #"(2" #"SPARE" #"(2" 9 (init_st []) c83_mid
  c83_in c83_proper1 (c83_files _ spare_one) (c83_statements _ spare_one) (c83_unused _ _) c83_ran c83_t1 c83_r1.
Example C83_macro_case := C83_macro lr35902 c83_env 3 c83_xs c83_ys c83_body #".macro" #".endmacro" #"Spare" #"Spare" [#"y"] [#"y"] 9 9
  (init_st []) c83_mid c83_in c83_proper2 (c83_files _ spare_calls) (c83_statements _ spare_calls) (c83_unused _ _) c83_ran c83_idle
  c83_t2 c83_t3 c83_r2 c83_body_ok.
Example C83_shipped_case := C83_shipped lr35902 c83_env c83_in.
Example C83_statements_case := C83_statements _ c83_cfg 3 c83_xs c83_proper1 C83_shipped_case (c83_files _ spare_one)
  (proj1 (proj1 (Forall_app _ _ _) (c83_statements _ spare_one))).
Example C83_assemble_case := C83_assemble _ c83_cfg 3 c83_text c83_proper1 C83_shipped_case (c83_files _ spare_one) (c83_texts _ spare_one).
Example C83_build_case := C83_build _ c83_cfg 3 c83_text c83_proper1 C83_shipped_case (c83_files _ spare_one) (c83_texts _ spare_one).

(** The images: as it was, with the definition, with the macro; and with a definition that is used. *)
Example C83_example :
  map (fun zs => let r := (exec c83_cfg 3 (c83_xs ++ zs ++ c83_ys) ;; link c83_cfg dummy_linker) (init_st []) in
                 (assembled (fst r), map fst (defines (fst r)), map fst (macros (fst r)), snd r))
    [ []; [Stmt KDirective [#".define"; #"SPARE"; #"(2"] 9];
      Stmt KDirective [#".macro"; #"Spare"; #"y"] 9 :: c83_body ++ [Stmt KDirective [#".endmacro"] 9];
      [Stmt KDirective [#".define"; #"here"; #"3"] 9] ] =
  [ ([0x3E; 17; 0x06; 16; 0xC3; 2; 0], [#"SIZE"], [#"PUT"], Ok tt);
    ([0x3E; 17; 0x06; 16; 0xC3; 2; 0], [#"SIZE"; #"SPARE"], [#"PUT"], Ok tt);
    ([0x3E; 17; 0x06; 16; 0xC3; 2; 0], [#"SIZE"], [#"PUT"; #"SPARE"], Ok tt);
    ([0x3E; 17; 0x06; 16; 0xC3; 3; 0], [#"SIZE"; #"here"], [#"PUT"], Ok tt) ].
Proof. vm_compute. reflexivity. Qed.

Print Assumptions C83_statements.
Print Assumptions C83_assemble.
Print Assumptions C83_build.
Print Assumptions C83_shipped.
Print Assumptions C83_define.
Print Assumptions C83_macro.
