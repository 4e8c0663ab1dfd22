(** Property C71: the ELF scripts write valid relocatable files for their processor that hold
    the linked program. *)
From Verif Require Import Py Utils Tokenizer State Assembler Instr Elf I8086 Ppc X86 Platform ElfPlat SpecUtils SpecSubst SpecExec SpecLink SpecElf SpecPlace SpecCpu SpecPlat
  PyFacts UtilsFacts Events ExecFacts LinkFacts ElfFacts FitFacts PlaceFacts CpuFacts PlatFacts Demo Reach
  PropsExec PropsElf PropsFit PropsPlace FitI86 FitPpc FitX86.
From Coq Require Import Lia.
Local Open Scope Z_scope.

(** The scripts with their processor, class, byte order and machine number (System V ABI). *)
Inductive elf_platform (v : env) : (nat -> list str -> script) -> cfg -> elf -> bool -> bool -> Z -> Prop :=
| ep_i386 : elf_platform v (i386_main v) (i8086 v) i386_elf32 false false 3
| ep_ppc : elf_platform v (ppc_main v) (powerpc v) ppc_elf32 false true 20
| ep_x86_64 : elf_platform v (x86_64_main v) (x86 v) x86_64_elf64 true false 62.

(** The sources assemble, to s, and link to a file. *)
Definition elf_builds (c : cfg) (e : elf) (fuel : nat) (sources : list str) (s : st) (file : bytes) : Prop :=
  assembled_files c fuel sources (init_st []) s /\
  exists s', link c (elf_linker e) (with_elf e s) = (s', Ok tt) /\ assembled s' = file.

(** The file is written exactly if everything assembles and links; nothing is written otherwise. *)
Theorem C71_written : forall v main c e is64 be machine fuel sources dest files r,
  elf_platform v main c e is64 be machine -> main fuel (sources ++ [dest]) = (files, r) ->
  (r = Ok tt <-> exists s file, elf_builds c e fuel sources s file) /\
  (forall s file, elf_builds c e fuel sources s file -> files = [(dest, file)]) /\
  (forall er, r = Err er -> files = []).
Proof.
  intros v main c e is64 be machine fuel sources dest files r P H.
  assert (X : exists h, elf_ident e = Ok h /\ elf_main c e fuel (sources ++ [dest]) = (files, r)).
  { destruct P; (eexists; split; [vm_compute; reflexivity|exact H]). }
  clear P H. destruct X as (h & ID & H). unfold elf_main in H. rewrite ID, rev_unit, rev_involutive in H.
  assert (WE : forall s, set_linker s h [] = with_elf e s) by (intros s; unfold with_elf; rewrite ID; reflexivity).
  unfold bind at 1 in H. destruct (iter (assemble_file c fuel) sources (init_st [])) as [s1 [[]|e1]] eqn:I.
  - unfold bind, modify in H. rewrite WE in H. destruct (link c (elf_linker e) (with_elf e s1)) as [s2 [[]|e2]] eqn:L; injection H as <- <-.
    + pose proof (proj1 (files_iter _ _ _ _ _) I) as AF. split; [|split; [|discriminate]].
      * split; [intros _|auto]. exists s1, (assembled s2). split; [exact AF|]. exists s2. auto.
      * intros s file (A & s' & B & E). apply files_iter in A. rewrite I in A. injection A as <-. rewrite L in B. injection B as <-. rewrite <- E. reflexivity.
    + assert (NB : forall s file, ~ elf_builds c e fuel sources s file).
      { intros s file (A & s' & B & E). apply files_iter in A. rewrite I in A. injection A as <-. rewrite L in B. discriminate. }
      split; [|split; [intros s file B; destruct (NB _ _ B)|auto]]. split; [discriminate|]. intros (s & file & B). destruct (NB _ _ B).
  - injection H as <- <-.
    assert (NB : forall s file, ~ elf_builds c e fuel sources s file).
    { intros s file (A & s' & B & E). apply files_iter in A. rewrite I in A. discriminate. }
    split; [|split; [intros s file B; destruct (NB _ _ B)|auto]]. split; [discriminate|]. intros (s & file & B). destruct (NB _ _ B).
Qed.
Print Assumptions C71_written.

Lemma platform_fits : forall v main c e is64 be machine, elf_platform v main c e is64 be machine ->
  SpecCpu.fits c /\ handlers neat c /\ no_passes c /\ (exists h, elf_ident e = Ok h) /\ e_64 e = is64 /\ e_big e = be.
Proof.
  intros v main c e is64 be machine P. destruct P.
  - destruct (i86_fits v) as [F N]. split; [exact F|]. split; [exact N|]. split; [split; reflexivity|]. split; [eexists; vm_compute; reflexivity|split; reflexivity].
  - destruct (ppc_fits v) as [F N]. split; [exact F|]. split; [exact N|]. split; [split; reflexivity|]. split; [eexists; vm_compute; reflexivity|split; reflexivity].
  - destruct (x86_fits v) as [F N]. split; [exact F|]. split; [exact N|]. split; [split; reflexivity|]. split; [eexists; vm_compute; reflexivity|split; reflexivity].
Qed.
Lemma files_sane : forall c fuel sources s s', SpecCpu.fits c -> handlers neat c -> byte_files c -> sane s ->
  assembled_files c fuel sources s s' -> sane s'.
Proof. intros c fuel sources s s' F N B SN A. induction A as [|n t ns s0 s1 s2 _ A _ IH]; [exact SN|]. apply IH. eapply C49_tidy; eauto. Qed.
Lemma builds_produces : forall v main c e is64 be machine fuel sources s file,
  elf_platform v main c e is64 be machine -> byte_files c -> elf_builds c e fuel sources s file -> produces c e (with_elf e s) file.
Proof.
  intros v main c e is64 be machine fuel sources s file P B (A & s' & L & E). destruct (platform_fits _ _ _ _ _ _ _ P) as (F & N & NP & (h & ID) & _).
  split; [exact NP|]. split; [|split; [unfold with_elf; rewrite ID; reflexivity|exists s'; auto]].
  destruct (files_sane _ _ _ _ _ F N B (sane_init []) A) as (_ & R & _). exact R.
Qed.

(** The ELF header *)
Theorem C71_header : forall v main c e is64 be machine fuel sources s file,
  elf_platform v main c e is64 be machine -> byte_files c -> elf_builds c e fuel sources s file ->
  firstn 7 file = [127; 69; 76; 70; if is64 then 2 else 1; if be then 2 else 1; 1] /\
  word be file 16 2 = 1 /\ word be file 18 2 = machine /\ word be file 20 4 = 1 /\
  e_ehsize is64 be file = (if is64 then 64 else 52) /\ e_shoff is64 be file = (if is64 then 64 else 52) /\
  e_shentsize is64 be file = (if is64 then 64 else 40) /\
  e_shnum is64 be file = zlen (sections s) + 4 /\ e_shstrndx is64 be file = zlen (sections s) + 1.
Proof.
  intros v main c e is64 be machine fuel sources s file P BF H. pose proof (builds_produces _ _ _ _ _ _ _ _ _ _ _ P BF H) as PR.
  destruct (platform_fits _ _ _ _ _ _ _ P) as (_ & _ & _ & (h & ID) & <- & <-).
  destruct (C33_header _ _ _ _ PR) as (H1 & H2 & H3 & H4 & H5 & H6). split; [exact H1|].
  split; [|split; [|split; [|exact (conj H2 (conj H3 (conj H4 (conj H5 H6))))]]]; take PR; rewrite F; generalize (hd ++ concat bs ++ assembled s1 ++ shstr ++ strtab ++ symtab); intros rest;
    clear - P; destruct P; vm_compute; reflexivity.
Qed.
Print Assumptions C71_header.

(** ** The program in the file *)

(** What does not look at the attributes of the linker. *)
Definition blind {A} (m : M A) : Prop :=
  forall s h r, m (set_linker s h r) = (set_linker (fst (m s)) h r, snd (m s)).
Lemma blind_bind : forall A B (m : M A) (k : A -> M B), blind m -> (forall a, blind (k a)) -> blind (bind m k).
Proof.
  intros A B m k Hm Hk s h r. unfold bind. rewrite (Hm s h r). destruct (m s) as [s1 [a|er]]; cbn [fst snd]; [|reflexivity]. apply Hk.
Qed.
Lemma blind_ret : forall A (a : A), blind (ret a). Proof. intros A a s h r. reflexivity. Qed.
Lemma blind_lift : forall A (x : res A), blind (lift x). Proof. intros A x s h r. unfold lift. destruct x; reflexivity. Qed.
Lemma blind_a : forall A x, blind (@araise A x). Proof. intros A x s h r. reflexivity. Qed.
Lemma blind_p : forall A x, blind (@praise A x). Proof. intros A x s h r. reflexivity. Qed.
Lemma blind_patch : forall be a n v k i, blind (patch_loop be a n v i k).
Proof.
  intros be a n v. induction k as [|k IH]; intros i s h r; [reflexivity|]. cbn [patch_loop]. unfold bind, get, lift, modify.
  cbn [assembled set_linker]. set (x := if be then _ else _). destruct (at_index (assembled s) x) as [o|er]; [|reflexivity].
  destruct (set_index (assembled s) x _) as [out|er]; [|reflexivity].
  change (set_assembled (set_linker s h r) out) with (set_linker (set_assembled s out) h r). apply IH.
Qed.
Lemma blind_resolve : forall p a d, blind (resolve_one p dummy_linker a d).
Proof.
  intros p a d. unfold resolve_one. cbv zeta. apply blind_bind; [intros s h r; reflexivity|]. intros ab.
  apply blind_bind; [destruct (negb _); intros s h r; reflexivity|]. intros ta.
  apply blind_bind; [destruct ta; [apply blind_ret|apply blind_bind; [apply blind_a|intros; apply blind_ret]]|]. intros [t ab'].
  destruct (ld_hook d) as [hk|]; [intros s h r; unfold apply_hook; cbn [assembled set_linker]; destruct (hk a t (assembled s)); reflexivity|].
  apply blind_bind; [destruct ab'; [apply blind_ret|apply blind_p]|]. intros z.
  destruct (ld_alignment d =? 0); [apply blind_p|]. destruct (negb (z mod _ =? 0)); [apply blind_a|].
  destruct (negb (negb (ld_relative d =? 0)) && (t <? 0)); [apply blind_a|]. destruct (negb (in_bit_range_decimal _ _ _)); [apply blind_a|].
  apply blind_bind; [destruct (ld_bits d); [apply blind_lift|apply blind_ret]|]. intros. apply blind_patch.
Qed.
Lemma blind_iter : forall p l, blind (iter (fun '(a, d) => resolve_one p dummy_linker a d) l).
Proof. intros p. induction l as [|[a d] l IH]; [apply blind_ret|]. cbn [iter]. apply blind_bind; [apply blind_resolve|intros; exact IH]. Qed.
Lemma flat_with : forall c e s s', no_passes c -> link c dummy_linker s = (s', Ok tt) ->
  exists s2, link c dummy_linker (with_elf e s) = (s2, Ok tt) /\ assembled s2 = assembled s'.
Proof.
  intros c e s s' NP L. rewrite link_eq in L by exact NP. unfold with_elf. set (h := match elf_ident e with Ok h => h | Err _ => [] end).
  exists (set_linker s' h []). rewrite link_eq by exact NP. unfold resolve_labels, bind, get in *. cbn [labels_addresses set_linker].
  rewrite (blind_iter (c_p c) (labels_addresses s) s h []).
  destruct (iter (fun '(a, d) => resolve_one (c_p c) dummy_linker a d) (labels_addresses s) s) as [s1 [[]|er]]; [|discriminate L].
  injection L as ->. split; reflexivity.
Qed.

(** After the headers comes the program: where all names are known, as it is linked flat. *)
Theorem C71_code : forall v main c e is64 be machine fuel sources s file s',
  elf_platform v main c e is64 be machine -> byte_files c -> elf_builds c e fuel sources s file ->
  link c dummy_linker s = (s', Ok tt) ->
  slice ((if is64 then 64 else 52) + (if is64 then 64 else 40) * (zlen (sections s) + 4)) (zlen (assembled s)) file = assembled s'.
Proof.
  intros v main c e is64 be machine fuel sources s file s' P B H L. pose proof (builds_produces _ _ _ _ _ _ _ _ _ _ _ P B H) as PR.
  destruct (platform_fits _ _ _ _ _ _ _ P) as (_ & _ & NP & _ & <- & <-).
  destruct (flat_with c e s s' NP L) as (s2 & L2 & <-). exact (C33_code c e (with_elf e s) file s2 PR L2).
Qed.
Print Assumptions C71_code.

(** Every section of the sources is in the file, with its name, address, permissions and bytes. *)
Theorem C71_sections : forall v main c e is64 be machine fuel sources s file k name sc,
  elf_platform v main c e is64 be machine -> byte_files c -> elf_builds c e fuel sources s file ->
  ~ In [] (map fst (sections s)) -> nth_error (sections s) k = Some (name, sc) ->
  let header k := shdr_nth is64 be file k in
  let h := header (Z.of_nat k + 1) in
  let code := slice ((if is64 then 64 else 52) + (if is64 then 64 else 40) * (zlen (sections s) + 4)) (zlen (assembled s)) file in
  exists size, sc_size sc = Some size /\ content file h = slice (sc_offset sc) size code /\ zlen (content file h) = size /\
    sh_addr h = sc_start sc /\ flags_of (sc_permissions sc) (sh_flags h) /\ sh_type h = (if size =? 0 then 8 else 1) /\
    name_at (content file (header (e_shstrndx is64 be file))) (sh_name h) name.
Proof.
  intros v main c e is64 be machine fuel sources s file k name sc P B H NE K. pose proof (builds_produces _ _ _ _ _ _ _ _ _ _ _ P B H) as PR.
  destruct (platform_fits _ _ _ _ _ _ _ P) as (F & N & NP & _ & <- & <-). intros header h code.
  assert (X : exists s0 text, history c (fun _ => False) (init_st []) s0 /\ assemble c fuel text s0 = (s, Ok tt)).
  { destruct H as (A & _). assert (Y : forall i, history c (fun _ => False) (init_st []) i -> sources <> [] -> assembled_files c fuel sources i s ->
      exists s0 text, history c (fun _ => False) (init_st []) s0 /\ assemble c fuel text s0 = (s, Ok tt)).
    { clear. intros i HI NN A. induction A as [|n t ns s0 s1 s2 _ A R IH]; [congruence|].
      assert (H1 : history c (fun _ => False) (init_st []) s1) by (replace s1 with (fst (assemble c fuel t s0)) by (rewrite A; reflexivity); apply h_assemble; exact HI).
      destruct R as [s1|n2 t2 ns2 s1 s3 s4 F2 A2 R]; [exists s0, t; auto|]. apply IH; [exact H1|discriminate]. }
    destruct sources as [|n ns]; [inversion A; subst; destruct k; discriminate K|]. apply (Y (init_st [])); [constructor|discriminate|exact A]. }
  destruct X as (s0 & text & HI & AS).
  destruct (C33_program c fuel text [] s0 s e file k name sc (fit_sections c F) HI AS NE PR K) as (size & S1 & S2 & S3 & _).
  destruct (C33_sections c e (with_elf e s) file k name sc PR K) as (size' & T1 & _ & T3 & T4 & T5 & _). rewrite S1 in T1. injection T1 as <-.
  exists size. split; [exact S1|]. split; [exact S2|]. split; [exact S3|]. split; [exact T4|]. split; [exact T5|]. split; [exact T3|].
  exact (C34_section_names c e (with_elf e s) file k name sc PR K).
Qed.
Print Assumptions C71_sections.

(** The same little program in the three assembly languages: a jump to a name of the other section. *)
Definition c71_env : env :=
  Env (fun n =>
        if str_eqb n #"i.s" then Some (lines [".section .text RX"; "nop"; "jmp there"; ".section .data RW"; ".db 1,2"; "there:"]%string)
        else if str_eqb n #"p.s" then Some (lines [".section .text RX"; "li r3 5"; "b there"; ".section .data RW"; "there:"; ".db 1,2"]%string)
        else if str_eqb n #"x.s" then Some (lines [".bits 64"; ".section .text RX"; "nop"; "jmp there"; ".section .data RW"; ".db 1,2"; "there:"]%string)
        else None)
      (fun _ => None) (fun _ => None) (fun _ => None) (fun _ => None).
Definition c71_source (machine : Z) : str := if machine =? 3 then #"i.s" else if machine =? 20 then #"p.s" else #"x.s".
Definition c71_state (c : cfg) (n : str) : st := fst (assemble_file c 5 n (init_st [])).
Definition c71_file (c : cfg) (e : elf) (s : st) : bytes := assembled (fst (link c (elf_linker e) s)).

Lemma assembled_one : forall c fuel n text, file_text (c_env c) n = Some text ->
  snd (assemble_file c fuel n (init_st [])) = Ok tt ->
  assembled_files c fuel [n] (init_st []) (fst (assemble_file c fuel n (init_st []))).
Proof.
  intros c fuel n text F E. eapply af_file; [exact F| |apply af_none].
  assert (X : forall s, assemble_file c fuel n s = assemble c fuel text s)
    by (intros s; unfold assemble_file, open_file; rewrite F; reflexivity).
  rewrite X in *. rewrite <- E. apply surjective_pairing.
Qed.
(** The file has the linked program after its headers (52 + 6 * 40 or 64 + 6 * 64 bytes). *)
Example C71_example : forall main c e is64 be machine, elf_platform c71_env main c e is64 be machine ->
  let n := c71_source machine in
  let s := c71_state c n in
  let file := c71_file c e (with_elf e s) in
  byte_files c /\ elf_builds c e 5 [n] s file /\ main 5%nat [n; #"out"] = ([(#"out", file)], Ok tt) /\
  map fst (sections s) = [#".text"; #".data"] /\ ~ In [] (map fst (sections s)) /\
  snd (link c dummy_linker s) = Ok tt /\
  slice (if is64 then 448 else 292) (zlen (assembled s)) file =
    (if machine =? 3 then [0x90; 0xE9; 2; 0; 1; 2]
     else if machine =? 20 then [0x38; 0x60; 0; 5; 0x48; 0; 0; 4; 1; 2] else [0x90; 0xE9; 2; 0; 0; 0; 1; 2]).
Proof.
  intros main c e is64 be machine P. cbv zeta.
  split; [intros n b H; destruct P; discriminate H|].
  assert (B : elf_builds c e 5 [c71_source machine] (c71_state c (c71_source machine))
                (c71_file c e (with_elf e (c71_state c (c71_source machine))))).
  { split; [destruct P; (eapply assembled_one; [reflexivity|vm_compute; reflexivity])|].
    exists (fst (link c (elf_linker e) (with_elf e (c71_state c (c71_source machine))))).
    split; [|reflexivity].
    assert (E : snd (link c (elf_linker e) (with_elf e (c71_state c (c71_source machine)))) = Ok tt)
      by (destruct P; vm_compute; reflexivity).
    rewrite <- E. apply surjective_pairing. }
  split; [exact B|]. split.
  { destruct (main 5%nat [c71_source machine; #"out"]) as [fs r] eqn:M.
    destruct (C71_written c71_env main c e is64 be machine 5 [c71_source machine] #"out" fs r P M) as (W1 & W2 & _).
    rewrite (W2 _ _ B). assert (R : r = Ok tt) by (apply W1; eauto). rewrite R. reflexivity. }
  split; [destruct P; vm_compute; reflexivity|].
  split; [destruct P; vm_compute; intuition discriminate|].
  split; destruct P; vm_compute; reflexivity.
Qed.
