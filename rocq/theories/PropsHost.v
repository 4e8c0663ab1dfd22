(** C81: a build depends on the files it opens and on no others. *)
From Verif Require Import Py PyFacts Utils Tokenizer State Assembler Mos6502 Mc68000 Mips32 Lr35902 Z80 Thumb Ppc I8086 X86
  Elf Platform ElfPlat SpecHost HostFacts Demo.
Local Open Scope Z_scope.

(** With more files on the host a build either stopped at a missing one before, or nothing changes:
    not the result, not an error, not the state. *)
Theorem C81_more : forall c1 c2 fuel text, twins (fun f g => forall t, as_with_more (f t) (g t)) c1 c2 ->
  more_files (c_env c1) (c_env c2) -> as_with_more (assemble c1 fuel text) (assemble c2 fuel text).
Proof.
  intros c1 c2 fuel text T H.
  exact (rel_assemble (@as_with_more) more_refl more_bind (@has_all) more_open c1 c2 fuel text T H).
Qed.

(** Two builds that both succeed differ only if a file exists on both hosts with different contents. *)
Theorem C81_agree : forall c1 c2 fuel text, twins (fun f g => forall t, same_success (f t) (g t)) c1 c2 ->
  no_conflict (c_env c1) (c_env c2) -> same_success (assemble c1 fuel text) (assemble c2 fuel text).
Proof.
  intros c1 c2 fuel text T H.
  exact (rel_assemble (@same_success) succ_refl succ_bind (@agreed) succ_open c1 c2 fuel text T H).
Qed.

(** Every assembler of the repository is such a pair of twins on two hosts. *)
Theorem C81_shipped : forall C e1 e2, In C shipped ->
  (more_files e1 e2 -> twins (fun f g => forall t, as_with_more (f t) (g t)) (C e1) (C e2)) /\
  (no_conflict e1 e2 -> twins (fun f g => forall t, same_success (f t) (g t)) (C e1) (C e2)).
Proof.
  intros C e1 e2 I. split; intros H.
  - exact (proj1 (shipped_twins (@as_with_more) more_refl more_bind (@has_all) more_open C e1 e2 I H)).
  - exact (proj1 (shipped_twins (@same_success) succ_refl succ_bind (@agreed) succ_open C e1 e2 I H)).
Qed.

Section Scripts.
  Context (rel : forall A, M A -> M A -> Prop) (rel_refl : forall A (m : M A), rel A m m)
    (rel_bind : forall A B (m1 m2 : M A) (k1 k2 : A -> M B), rel A m1 m2 -> (forall a, rel B (k1 a) (k2 a)) ->
       rel B (bind m1 k1) (bind m2 k2))
    (files : forall A, (str -> option A) -> (str -> option A) -> Prop)
    (rel_open : forall A f g n, files A f g -> rel A (open_file f n) (open_file g n)).
  Context (out : script -> script -> Prop) (out_refl : forall x, out x x)
    (out_run : forall (m1 m2 : M unit) s k, rel unit m1 m2 ->
       out (match m1 s with (t, Ok _) => k t | (_, Err e) => ([], Err e) end)
           (match m2 s with (t, Ok _) => k t | (_, Err e) => ([], Err e) end)).
  Notation twin_ := (twins (relt rel)).

  Lemma out_cli : forall c1 c2 defs fuel lk pre post args, twin_ c1 c2 -> hosts files (c_env c1) (c_env c2) ->
    out (cli_main c1 defs fuel lk pre post args) (cli_main c2 defs fuel lk pre post args).
  Proof.
    intros c1 c2 defs fuel lk pre post args T H. unfold cli_main. destruct (rev args) as [|d sources]; [apply out_refl|].
    cbv zeta. apply (out_run _ _ (init_st defs) (fun s => (save s d, Ok tt))).
    assert (T' : twin_ (Cfg (c_p c1) (c_env c1) (c_instructions c1) (c_directives c1) (c_pre_link c1 ++ pre) (c_post_link c1 ++ post))
                       (Cfg (c_p c2) (c_env c2) (c_instructions c2) (c_directives c2) (c_pre_link c2 ++ pre) (c_post_link c2 ++ post))).
    { destruct T as (E1 & E2 & E3 & E4 & D). unfold twins. cbn [c_p c_instructions c_pre_link c_post_link c_directives].
      rewrite E1, E2, E3, E4. repeat split. exact D. }
    apply rel_bind; [|intros _; rewrite (rel_link rel _ _ lk T'); apply rel_refl].
    apply rel_iter; auto. intros n. apply (rel_file rel rel_refl rel_bind files rel_open); [exact T'|exact H].
  Qed.
  Lemma out_main : forall c1 c2 defs fuel args fin, twin_ c1 c2 -> hosts files (c_env c1) (c_env c2) ->
    out (main_with c1 defs fuel args fin) (main_with c2 defs fuel args fin).
  Proof.
    intros c1 c2 defs fuel args fin T H. unfold main_with. destruct args as [|x args]; [apply out_refl|].
    apply (out_run _ _ (init_st defs) fin). apply rel_bind; [|intros _; rewrite (rel_link rel _ _ _ T); apply rel_refl].
    apply (rel_file rel rel_refl rel_bind files rel_open); assumption.
  Qed.
  Lemma out_elf : forall c1 c2 e fuel args, twin_ c1 c2 -> hosts files (c_env c1) (c_env c2) ->
    out (elf_main c1 e fuel args) (elf_main c2 e fuel args).
  Proof.
    intros c1 c2 e fuel args T H. unfold elf_main. destruct (elf_ident e) as [h|x]; [|apply out_refl].
    destruct (rev args) as [|d sources]; [apply out_refl|].
    apply (out_run _ _ (init_st []) (fun s => (save s d, Ok tt))).
    apply rel_bind; [|intros _; rewrite (rel_link rel _ _ _ T); apply rel_refl].
    apply rel_iter; auto. intros n. apply (rel_file rel rel_refl rel_bind files rel_open); assumption.
  Qed.
  Lemma out_program : forall P e1 e2 fuel args, In P programs -> hosts files e1 e2 -> out (P e1 fuel args) (P e2 fuel args).
  Proof.
    intros P e1 e2 fuel args I H.
    assert (S : forall C, In C shipped -> twin_ (C e1) (C e2) /\ hosts files (c_env (C e1)) (c_env (C e2))).
    { intros C IC. destruct (shipped_twins rel rel_refl rel_bind files rel_open C e1 e2 IC H) as (T & -> & ->). auto. }
    assert (N : forall C, In C shipped -> forall defs fin, out (main_with (C e1) defs fuel args fin) (main_with (C e2) defs fuel args fin)).
    { intros C IC defs fin. apply out_main; apply (S C IC). }
    assert (L : forall C, In C shipped -> forall e, out (elf_main (C e1) e fuel args) (elf_main (C e2) e fuel args)).
    { intros C IC e. apply out_elf; apply (S C IC). }
    repeat destruct I as [<-|I]; try destruct I.
    - apply (N nes). unfold shipped. do 11 right. left. reflexivity.
    - apply (N thumb). unfold shipped. do 3 right. left. reflexivity.
    - apply (N (mips32 false)). unfold shipped. do 5 right. left. reflexivity.
    - apply (N mc68000). unfold shipped. do 6 right. left. reflexivity.
    - apply (L i8086). unfold shipped. do 8 right. left. reflexivity.
    - apply (L powerpc). unfold shipped. do 7 right. left. reflexivity.
    - apply (L x86). unfold shipped. do 9 right. left. reflexivity.
  Qed.
End Scripts.

Definition out_more (x y : script) : Prop := snd x = Err missing \/ x = y.
Definition out_agree (x y : script) : Prop := snd x = Ok tt -> snd y = Ok tt -> x = y.

Lemma out_more_run : forall (m1 m2 : M unit) s k, as_with_more m1 m2 ->
  out_more (match m1 s with (t, Ok _) => k t | (_, Err e) => ([], Err e) end)
           (match m2 s with (t, Ok _) => k t | (_, Err e) => ([], Err e) end).
Proof.
  intros m1 m2 s k H. destruct (H s) as [E|E]; [left|right].
  - destruct (m1 s) as [t [[]|x]]; cbn [snd] in E; [discriminate|]. injection E as ->. reflexivity.
  - rewrite E. reflexivity.
Qed.
Lemma out_agree_run : forall (m1 m2 : M unit) s k, same_success m1 m2 ->
  out_agree (match m1 s with (t, Ok _) => k t | (_, Err e) => ([], Err e) end)
            (match m2 s with (t, Ok _) => k t | (_, Err e) => ([], Err e) end).
Proof.
  intros m1 m2 s k H E1 E2. destruct (m1 s) as [t1 [[]|x1]] eqn:F1; [|discriminate].
  destruct (m2 s) as [t2 [[]|x2]] eqn:F2; [|discriminate]. destruct (H _ _ _ _ _ F1 F2) as [-> _]. reflexivity.
Qed.

(** The same for the command line: files written and error. *)
Theorem C81_cli : forall C e1 e2 defs fuel lk pre post args, In C shipped ->
  (more_files e1 e2 -> out_more (cli_main (C e1) defs fuel lk pre post args) (cli_main (C e2) defs fuel lk pre post args)) /\
  (no_conflict e1 e2 -> out_agree (cli_main (C e1) defs fuel lk pre post args) (cli_main (C e2) defs fuel lk pre post args)).
Proof.
  intros C e1 e2 defs fuel lk pre post args I. split; intros H.
  - destruct (shipped_twins (@as_with_more) more_refl more_bind (@has_all) more_open C e1 e2 I H) as (T & F1 & F2).
    apply (out_cli (@as_with_more) more_refl more_bind (@has_all) more_open out_more
             (fun x => or_intror eq_refl) out_more_run); [exact T|rewrite F1, F2; exact H].
  - destruct (shipped_twins (@same_success) succ_refl succ_bind (@agreed) succ_open C e1 e2 I H) as (T & F1 & F2).
    apply (out_cli (@same_success) succ_refl succ_bind (@agreed) succ_open out_agree
             (fun x _ _ => eq_refl) out_agree_run); [exact T|rewrite F1, F2; exact H].
Qed.

(** And for the programs of the platforms. *)
Theorem C81_programs : forall P e1 e2 fuel args, In P programs ->
  (more_files e1 e2 -> out_more (P e1 fuel args) (P e2 fuel args)) /\
  (no_conflict e1 e2 -> out_agree (P e1 fuel args) (P e2 fuel args)).
Proof.
  intros P e1 e2 fuel args I. split; intros H.
  - exact (out_program (@as_with_more) more_refl more_bind (@has_all) more_open out_more
             (fun x => or_intror eq_refl) out_more_run P e1 e2 fuel args I H).
  - exact (out_program (@same_success) succ_refl succ_bind (@agreed) succ_open out_agree
             (fun x _ _ => eq_refl) out_agree_run P e1 e2 fuel args I H).
Qed.

Print Assumptions C81_more.
Print Assumptions C81_agree.
Print Assumptions C81_shipped.
Print Assumptions C81_cli.
Print Assumptions C81_programs.

(** ** Examples *)

Fixpoint text_files (l : list (string * list string)) (n : str) : option str :=
  match l with
  | [] => None
  | (k, t) :: r => if str_eqb n (list_ascii_of_string k) then Some (lines t) else text_files r n
  end.
Definition host (l : list (string * list string)) : env :=
  Env (text_files l) (fun _ => None) (fun _ => None) (fun _ => None) (fun _ => None).

Lemma host_more : forall l m, has_all (text_files l) (text_files m) -> more_files (host l) (host m).
Proof. intros l m H. split; [exact H|]. repeat split; intros n a E; discriminate. Qed.
Lemma host_conflict : forall l m, agreed (text_files l) (text_files m) -> no_conflict (host l) (host m).
Proof. intros l m H. split; [exact H|]. repeat split; intros n a b E; discriminate. Qed.

Definition small : env := host [("a.s", ["LDX #1"; ".include b.s"]); ("b.s", ["RTS"])]%string.
Definition big : env := host [("a.s", ["LDX #1"; ".include b.s"]); ("b.s", ["RTS"]); ("c.s", ["NOP"])]%string.
Definition other : env := host [("a.s", ["LDX #1"; ".include b.s"]); ("b.s", ["RTS"]); ("d.s", ["BRK"])]%string.
Definition poor : env := host [("a.s", ["LDX #1"; ".include b.s"])]%string.

Ltac look := intros n; cbn [text_files]; repeat match goal with |- context [str_eqb n ?k] => destruct (str_eqb n k) end; congruence.
Lemma small_big : more_files small big.
Proof. apply host_more. intros n a. revert n. look. Qed.
Lemma poor_big : more_files poor big.
Proof. apply host_more. intros n a. revert n. look. Qed.
Lemma big_other : no_conflict big other.
Proof.
  apply host_conflict. intros n a b.
  destruct (str_eqb n #"c.s") eqn:E; [apply str_eqb_eq in E; subst n; vm_compute; discriminate|].
  destruct (str_eqb n #"d.s") eqn:F; [apply str_eqb_eq in F; subst n; vm_compute; discriminate|].
  change (list_ascii_of_string "c.s") with (#"c.s") in *. cbn [text_files].
  change (list_ascii_of_string "c.s") with (#"c.s"). change (list_ascii_of_string "d.s") with (#"d.s"). rewrite E, F.
  repeat match goal with |- context [str_eqb n ?k] => destruct (str_eqb n k) end; congruence.
Qed.

(** Both cases happen: nothing changes, or a file was missing; and each of two hosts may have files the other lacks. *)
Example C81_more_example :
  snd (assemble (mos6502 small) 3 (lines ["NOP"; ".include a.s"]%string) (init_st [])) = Ok tt /\
  assembled (fst (assemble (mos6502 small) 3 (lines ["NOP"; ".include a.s"]%string) (init_st []))) = [0xEA; 0xA2; 1; 0x60] /\
  assemble (mos6502 small) 3 (lines ["NOP"; ".include a.s"]%string) (init_st []) =
    assemble (mos6502 big) 3 (lines ["NOP"; ".include a.s"]%string) (init_st []) /\
  snd (assemble (mos6502 poor) 3 (lines ["NOP"; ".include a.s"]%string) (init_st [])) = Err missing /\
  (snd (assemble (mos6502 poor) 3 (lines ["NOP"; ".include a.s"]%string) (init_st [])) = Err missing \/
   assemble (mos6502 poor) 3 (lines ["NOP"; ".include a.s"]%string) (init_st []) =
     assemble (mos6502 big) 3 (lines ["NOP"; ".include a.s"]%string) (init_st [])).
Proof.
  do 2 (split; [vm_compute; reflexivity|]). split; [|split; [vm_compute; reflexivity|]].
  - destruct (C81_more (mos6502 small) (mos6502 big) 3 (lines ["NOP"; ".include a.s"]%string)
      (proj1 (C81_shipped mos6502 small big (or_introl eq_refl)) small_big) small_big (init_st [])) as [H|H]; [|exact H].
    exfalso. revert H. vm_compute. discriminate.
  - exact (C81_more (mos6502 poor) (mos6502 big) 3 (lines ["NOP"; ".include a.s"]%string)
      (proj1 (C81_shipped mos6502 poor big (or_introl eq_refl)) poor_big) poor_big (init_st [])).
Qed.
Example C81_agree_example :
  In mos6502 shipped /\ no_conflict big other /\ file_text big #"c.s" <> None /\ file_text other #"c.s" = None /\
  snd (cli_main (mos6502 big) [] 3 dummy_linker [] [] [#"a.s"; #"out"]) = Ok tt /\
  cli_main (mos6502 big) [] 3 dummy_linker [] [] [#"a.s"; #"out"] = cli_main (mos6502 other) [] 3 dummy_linker [] [] [#"a.s"; #"out"].
Proof.
  split; [left; reflexivity|]. split; [exact big_other|]. split; [vm_compute; discriminate|].
  split; [vm_compute; reflexivity|]. split; [vm_compute; reflexivity|].
  apply (proj2 (C81_cli mos6502 big other [] 3 dummy_linker [] [] [#"a.s"; #"out"] (or_introl eq_refl)) big_other);
    vm_compute; reflexivity.
Qed.
Example C81_programs_example :
  In nes_main programs /\ more_files small big /\
  map fst (fst (nes_main small 3 [#"a.s"; #"out"])) = [#"out"; #"out.0.nl"; #"out.ram.nl"] /\
  nes_main small 3 [#"a.s"; #"out"] = nes_main big 3 [#"a.s"; #"out"] /\
  snd (nes_main poor 3 [#"a.s"; #"out"]) = Err missing.
Proof.
  split; [left; reflexivity|]. split; [exact small_big|]. split; [vm_compute; reflexivity|].
  split; [|vm_compute; reflexivity].
  destruct (proj1 (C81_programs nes_main small big 3 [#"a.s"; #"out"] (or_introl eq_refl)) small_big) as [H|H]; [|exact H].
  exfalso. revert H. vm_compute. discriminate.
Qed.
