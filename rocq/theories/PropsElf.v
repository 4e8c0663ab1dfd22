(** C33 layout of the ELF files, C34 names and symbols. *)
From Coq Require Import Lia.
From Verif Require Import Py PyFacts Utils State Assembler SpecUtils SpecLink LinkFacts Elf SpecElf ElfFacts SpecExec Demo
  Events ExecFacts PropsExec.
Local Open Scope Z_scope.

(** [produces c e s file]: linking the assembled program s with a fresh ELF linker
    succeeds and gives the file. *)
Definition produces (c : cfg) (e : elf) (s : st) (file : bytes) : Prop :=
  no_passes c /\ Forall ref_ok (labels_addresses s) /\ elf_ident e = Ok (elf_header s) /\
  exists s', link c (elf_linker e) s = (s', Ok tt) /\ assembled s' = file.

Section File.
  Context (c : cfg) (e : elf) (s : st) (file : bytes) (P : produces c e s file).
  Let is64 := e_64 e.
  Let be := e_big e.
  Let n := zlen (sections s).
  Let head := if is64 then 64 else 52.
  Let entry := if is64 then 64 else 40.
  Let header k := shdr_nth is64 be file k.

  Lemma parts : exists s1 hd ls bs shstr strtab symtab sls sbs,
    let base := file_base e n in
    let code := zlen (assembled s) in
    resolve_labels (c_p c) (elf_linker e) s = (s1, Ok tt) /\
    zlen (assembled s1) = code /\
    file = elf_header s ++ hd ++ concat bs ++ assembled s1 ++ shstr ++ strtab ++ symtab /\
    build_header e n = Ok hd /\
    Forall2 (packed e) ls bs /\ zlen ls = n + 4 /\
    nth_error ls 0 = Some zeros /\
    (forall k name sc, nth_error (sections s) k = Some (name, sc) ->
      exists o size flags, sc_size sc = Some size /\ flags_of (sc_permissions sc) flags /\
        nth_error ls (S k) = Some (section_fields e base o sc size flags) /\ name_at shstr o name) /\
    (exists o1 o2 o3,
      nth_error ls (Z.to_nat (n + 1)) = Some (string_fields o1 (base + code) (zlen shstr)) /\
      nth_error ls (Z.to_nat (n + 2)) = Some (string_fields o2 (base + code + zlen shstr) (zlen strtab)) /\
      nth_error ls (Z.to_nat (n + 3)) = Some (symtab_fields e o3 (base + code + zlen shstr + zlen strtab) (zlen symtab)
                                     (n + 2)) /\
      name_at shstr o1 #".shstrtab" /\ name_at shstr o2 #".strtab" /\ name_at shstr o3 #".symtab") /\
    symtab = concat sbs /\ Forall2 (symbol_packed e) sls sbs /\
    length sls = length (exported_labels s) /\
    forall j name lb, nth_error (exported_labels s) j = Some (name, lb) ->
      exists o i k, lb_section lb = Some k /\ key_index (sections s) k = Some i /\
        nth_error sls j = Some ((o, i), lb_base lb) /\ name_at strtab o name.
  Proof.
    destruct P as (NP & RO & ID & s' & H & A).
    destruct (elf_link_inv _ _ _ _ NP RO H) as (s1 & h & RS & (Q1 & Q2 & Q3 & Q4 & Q5) & L & B).
    rewrite A in B. apply elf_layout in B.
    destruct B as (hd & ls & bs & shstr & strtab & symtab & sls & sbs & B). cbv zeta in B.
    unfold exported_labels in *. rewrite Q1, Q2, Q3, Q4, L in B.
    exists s1, hd, ls, bs, shstr, strtab, symtab, sls, sbs. cbv zeta.
    change (Z.of_nat (length (sections s))) with n in B.
    assert (N1 : forall k, (length (sections s) + k)%nat = Z.to_nat (n + Z.of_nat k)) by (intros; unfold n, zlen; lia).
    rewrite (N1 1%nat), (N1 2%nat), (N1 3%nat) in B. change (Z.of_nat 1) with 1 in B.
    change (Z.of_nat 2) with 2 in B. change (Z.of_nat 3) with 3 in B.
    destruct B as (B1 & B2 & B3 & B4 & B5 & B6 & B7 & B8 & B9 & B10 & B11).
    split; [exact RS|]. split; [exact L|]. split; [exact B1|]. split; [exact B2|]. split; [exact B3|].
    split; [unfold n, zlen in *; lia|]. auto 10.
  Qed.

  Lemma header_read : forall s1 hd ls bs post k l,
    file = elf_header s ++ hd ++ concat bs ++ post -> build_header e n = Ok hd ->
    Forall2 (packed e) ls bs -> 0 <= k -> nth_error ls (Z.to_nat k) = Some l ->
    zlen (assembled s1) = zlen (assembled s) -> header k = shdr_of l.
  Proof.
    intros s1 hd ls bs post k l F HD B K N _. destruct P as (_ & _ & ID & _).
    apply ident_spec in ID. destruct ID as [ID _].
    destruct (header_spec _ _ _ _ (concat bs ++ post) HD ID) as (H1 & H2 & _ & H4 & _).
    rewrite <- F in H2, H4. unfold header, shdr_nth. fold is64 be in H2, H4.
    rewrite H2, H4.
    destruct (concat_nth _ _ _ (section_header_size e) _ _ _ _ B (format_length e) N) as (b & pre & post' & Pk & E & L).
    rewrite F, E.
    replace (elf_header s ++ hd ++ (pre ++ b ++ post') ++ post)
      with (((elf_header s ++ hd) ++ pre) ++ b ++ (post' ++ post)) by (rewrite <- !app_assoc; reflexivity).
    apply read_shdr; [exact Pk|]. rewrite zlen_app, H1, L. rewrite Z2Nat.id by lia. lia.
  Qed.
End File.

Ltac take P :=
  let Q := fresh "Q" in
  pose proof (parts _ _ _ _ P) as Q; cbv zeta in Q;
  destruct Q as (s1 & hd & ls & bs & shstr & strtab & symtab & sls & sbs & RS & LC & F & HD & B & LN & N0 & NS &
    (o1 & o2 & o3 & S1 & S2 & S3 & M1 & M2 & M3) & SY & SB & SL & SN).

Lemma base_length : forall c e s file hd ls bs, produces c e s file -> build_header e (zlen (sections s)) = Ok hd ->
  Forall2 (packed e) ls bs -> zlen ls = zlen (sections s) + 4 ->
  zlen (elf_header s ++ hd ++ concat bs) = file_base e (zlen (sections s)).
Proof.
  intros c e s file hd ls bs (_ & _ & ID & _) HD B LN. apply ident_spec in ID. destruct ID as [ID _].
  destruct (header_spec _ _ _ _ [] HD ID) as (H1 & _).
  rewrite app_assoc, zlen_app, H1, (concat_length _ _ _ (section_header_size e) _ _ B (format_length e)), LN.
  unfold file_base. lia.
Qed.

(** ** C33 *)

(** The file header identifies class and byte order and locates the section headers. *)
Theorem C33_header : forall c e s file, produces c e s file ->
  let is64 := e_64 e in
  let be := e_big e in
  let n := zlen (sections s) in
  firstn 7 file = [127; 69; 76; 70; if is64 then 2 else 1; if be then 2 else 1; 1] /\
  e_ehsize is64 be file = (if is64 then 64 else 52) /\
  e_shoff is64 be file = (if is64 then 64 else 52) /\
  e_shentsize is64 be file = (if is64 then 64 else 40) /\
  e_shnum is64 be file = n + 4 /\ e_shstrndx is64 be file = n + 1.
Proof.
  intros c e s file P is64 be n. take P. pose proof P as (_ & _ & ID & _).
  apply ident_spec in ID. destruct ID as [ID I7].
  destruct (header_spec _ _ _ _ (concat bs ++ assembled s1 ++ shstr ++ strtab ++ symtab) HD ID) as (H1 & H2 & H3 & H4 & H5 & H6).
  rewrite <- F in H2, H3, H4, H5, H6. unfold header_size, section_header_size in *.
  split; [|auto 6]. rewrite F, firstn_app. rewrite I7. unfold zlen in ID.
  replace (7 - length (elf_header s))%nat with O by lia. cbn [firstn]. rewrite app_nil_r. reflexivity.
Qed.
Print Assumptions C33_header.

(** The file is: headers, the assembled bytes, and the three tables located by the last
    three section headers, with nothing in between or after. *)
Theorem C33_layout : forall c e s file, produces c e s file ->
  let header k := shdr_nth (e_64 e) (e_big e) file k in
  let n := zlen (sections s) in
  let base := (if e_64 e then 64 else 52) + (if e_64 e then 64 else 40) * (n + 4) in
  let shstrtab := header (n + 1) in
  let strtab := header (n + 2) in
  let symtab := header (n + 3) in
  header 0 = Shdr 0 0 0 0 0 0 0 0 0 0 /\
  sh_type shstrtab = 3 /\ sh_type strtab = 3 /\ sh_type symtab = 2 /\ sh_link symtab = n + 2 /\
  sh_offset shstrtab = base + zlen (assembled s) /\
  sh_offset strtab = sh_offset shstrtab + sh_size shstrtab /\
  sh_offset symtab = sh_offset strtab + sh_size strtab /\
  zlen file = sh_offset symtab + sh_size symtab /\
  sh_entsize symtab = (if e_64 e then 24 else 16) /\
  sh_size symtab = sh_entsize symtab * zlen (exported_labels s).
Proof.
  intros c e s file P header n base h1 h2 h3. take P.
  pose proof (fun k l K => header_read c e s file P s1 hd ls bs _ k l F HD B K) as HR.
  unfold h1, h2, h3, header. unfold n.
  assert (NN : 0 <= zlen (sections s)) by apply zlen_nonneg.
  rewrite (HR 0 _ (Z.le_refl 0) N0 LC).
  rewrite (HR (zlen (sections s) + 1) _ ltac:(lia) S1 LC).
  rewrite (HR (zlen (sections s) + 2) _ ltac:(lia) S2 LC).
  rewrite (HR (zlen (sections s) + 3) _ ltac:(lia) S3 LC).
  cbn [shdr_of zeros string_fields symtab_fields sh_type sh_link sh_offset sh_size sh_entsize].
  repeat split.
  - pose proof (base_length _ _ _ _ _ _ _ P HD B LN) as BL.
    rewrite F. rewrite !zlen_app in *. lia.
  - rewrite SY, (concat_length _ _ _ (sym_size e) _ _ SB (symbol_length e)).
    unfold zlen in *. rewrite SL. lia.
Qed.
Print Assumptions C33_layout.

(** Section header k+1 describes section k: address, size, permissions, and the bytes it
    locates are the bytes of the section in the linked code. *)
Theorem C33_sections : forall c e s file k name sc, produces c e s file ->
  nth_error (sections s) k = Some (name, sc) ->
  let h := shdr_nth (e_64 e) (e_big e) file (Z.of_nat k + 1) in
  let base := (if e_64 e then 64 else 52) + (if e_64 e then 64 else 40) * (zlen (sections s) + 4) in
  let code := slice base (zlen (assembled s)) file in
  exists size, sc_size sc = Some size /\ sh_size h = size /\
    sh_type h = (if size =? 0 then 8 else 1) /\ sh_addr h = sc_start sc /\
    flags_of (sc_permissions sc) (sh_flags h) /\ sh_addralign h = e_align e /\
    sh_offset h = base + sc_offset sc /\
    (0 <= sc_offset sc -> 0 <= size -> sc_offset sc + size <= zlen (assembled s) ->
     content file h = slice (sc_offset sc) size code).
Proof.
  intros c e s file k name sc P K h base code. take P.
  destruct (NS k name sc K) as (o & size & flags & SZ & FL & NK & _).
  assert (H : h = shdr_of (section_fields e (file_base e (zlen (sections s))) o sc size flags)).
  { unfold h. eapply header_read; eauto; [lia|].
    replace (Z.to_nat (Z.of_nat k + 1)) with (S k) by lia. exact NK. }
  exists size. rewrite H. cbn [shdr_of section_fields sh_size sh_type sh_addr sh_flags sh_addralign sh_offset].
  split; [exact SZ|]. split; [reflexivity|]. split; [reflexivity|]. split; [reflexivity|].
  split; [exact FL|]. split; [reflexivity|]. split; [reflexivity|].
  intros O1 O2 O3. unfold content, code.
  cbn [sh_offset sh_size].
  pose proof (base_length _ _ _ _ _ _ _ P HD B LN) as BL.
  change base with (file_base e (zlen (sections s))). rewrite <- BL.
  replace file with ((elf_header s ++ hd ++ concat bs) ++ assembled s1 ++ shstr ++ strtab ++ symtab)
    by (rewrite F, <- !app_assoc; reflexivity).
  rewrite slice_skip by exact O1. rewrite slice_skip0, <- LC, slice_here.
  apply slice_inside; lia.
Qed.
Print Assumptions C33_sections.

(** The code in the file is what the default linker produces, when that succeeds. *)
Theorem C33_code : forall c e s file s', produces c e s file -> link c dummy_linker s = (s', Ok tt) ->
  let base := (if e_64 e then 64 else 52) + (if e_64 e then 64 else 40) * (zlen (sections s) + 4) in
  slice base (zlen (assembled s)) file = assembled s'.
Proof.
  intros c e s file s' P L base. take P. pose proof P as (NP & _).
  rewrite link_eq in L by exact NP. unfold resolve_labels, bind, get in *.
  destruct (iter (fun '(address, d) => resolve_one (c_p c) dummy_linker address d) (labels_addresses s) s)
    as [s2 [[]|]] eqn:E; [|discriminate]. injection L as ->.
  apply (iter_same _ e) in E. rewrite E in RS. injection RS as ->.
  pose proof (base_length _ _ _ _ _ _ _ P HD B LN) as BL.
  change base with (file_base e (zlen (sections s))). rewrite <- BL.
  replace file with ((elf_header s ++ hd ++ concat bs) ++ assembled s1 ++ shstr ++ strtab ++ symtab)
    by (rewrite F, <- !app_assoc; reflexivity).
  rewrite <- LC. apply slice_mid.
Qed.
Print Assumptions C33_code.

(** ** C34 *)

(** Names of sections: each header names its section in the table of section names. *)
Theorem C34_section_names : forall c e s file k name sc, produces c e s file ->
  nth_error (sections s) k = Some (name, sc) ->
  let header k := shdr_nth (e_64 e) (e_big e) file k in
  let names := content file (header (e_shstrndx (e_64 e) (e_big e) file)) in
  name_at names (sh_name (header (Z.of_nat k + 1))) name.
Proof.
  intros c e s file k name sc P K header names.
  destruct (C33_header _ _ _ _ P) as (_ & _ & _ & _ & _ & SI). take P.
  pose proof (fun k l K => header_read c e s file P s1 hd ls bs _ k l F HD B K) as HR.
  assert (NN : 0 <= zlen (sections s)) by apply zlen_nonneg.
  assert (NM : names = shstr).
  { unfold names, header. rewrite SI. rewrite (HR (zlen (sections s) + 1) _ ltac:(lia) S1 LC).
    unfold content. cbn [shdr_of string_fields sh_offset sh_size].
    pose proof (base_length _ _ _ _ _ _ _ P HD B LN) as BL. rewrite <- BL, <- LC, <- zlen_app.
    replace file with (((elf_header s ++ hd ++ concat bs) ++ assembled s1) ++ shstr ++ strtab ++ symtab)
      by (rewrite F, <- !app_assoc; reflexivity).
    apply slice_mid. }
  rewrite NM. destruct (NS k name sc K) as (o & size & flags & SZ & FL & NK & NA).
  unfold header. erewrite (HR (Z.of_nat k + 1)); [|lia| |exact LC].
  2:{ replace (Z.to_nat (Z.of_nat k + 1)) with (S k) by lia. exact NK. }
  exact NA.
Qed.
Print Assumptions C34_section_names.

(** The three tables carry their usual names. *)
Theorem C34_table_names : forall c e s file, produces c e s file ->
  let header k := shdr_nth (e_64 e) (e_big e) file k in
  let names := content file (header (e_shstrndx (e_64 e) (e_big e) file)) in
  let n := zlen (sections s) in
  name_at names (sh_name (header (n + 1))) #".shstrtab" /\
  name_at names (sh_name (header (n + 2))) #".strtab" /\
  name_at names (sh_name (header (n + 3))) #".symtab".
Proof.
  intros c e s file P header names n.
  destruct (C33_header _ _ _ _ P) as (_ & _ & _ & _ & _ & SI). take P.
  pose proof (fun k l K => header_read c e s file P s1 hd ls bs _ k l F HD B K) as HR.
  assert (NN : 0 <= zlen (sections s)) by apply zlen_nonneg.
  assert (NM : names = shstr).
  { unfold names, header. rewrite SI. rewrite (HR (zlen (sections s) + 1) _ ltac:(lia) S1 LC).
    unfold content. cbn [shdr_of string_fields sh_offset sh_size].
    pose proof (base_length _ _ _ _ _ _ _ P HD B LN) as BL. rewrite <- BL, <- LC, <- zlen_app.
    replace file with (((elf_header s ++ hd ++ concat bs) ++ assembled s1) ++ shstr ++ strtab ++ symtab)
      by (rewrite F, <- !app_assoc; reflexivity).
    apply slice_mid. }
  rewrite NM. unfold header, n.
  rewrite (HR (zlen (sections s) + 1) _ ltac:(lia) S1 LC).
  rewrite (HR (zlen (sections s) + 2) _ ltac:(lia) S2 LC).
  rewrite (HR (zlen (sections s) + 3) _ ltac:(lia) S3 LC). auto.
Qed.
Print Assumptions C34_table_names.

(** The symbol table has one entry for each exported label, in order: its name in the
    string table the symbol table is linked to, its offset from the origin, global
    binding and the header of its section.  Together with the size of the table (C33) these are
    all entries. *)
Theorem C34_symbols : forall c e s file j name lb, produces c e s file ->
  nth_error (exported_labels s) j = Some (name, lb) ->
  let header k := shdr_nth (e_64 e) (e_big e) file k in
  let symtab := header (zlen (sections s) + 3) in
  let strings := content file (header (sh_link symtab)) in
  exists y k sname sc, sym_nth (e_64 e) (e_big e) file symtab (Z.of_nat j) = y /\
    name_at strings (sy_name y) name /\ sy_value y = lb_base lb /\ sy_info y = 16 /\
    lb_section lb = Some sname /\ nth_error (sections s) k = Some (sname, sc) /\ sy_shndx y = Z.of_nat k + 1.
Proof.
  intros c e s file j name lb P J header symtab' strings. take P.
  pose proof (fun k l K => header_read c e s file P s1 hd ls bs _ k l F HD B K) as HR.
  assert (NN : 0 <= zlen (sections s)) by apply zlen_nonneg.
  destruct (SN j name lb J) as (o & i & kn & LS & KI & NJ & NA).
  apply key_index_spec in KI. destruct KI as [I0 (sc & SC)].
  pose proof (base_length _ _ _ _ _ _ _ P HD B LN) as BL.
  assert (H3 : symtab' = shdr_of (symtab_fields e o3 (file_base e (zlen (sections s)) + zlen (assembled s) + zlen shstr + zlen strtab)
     (zlen symtab) (zlen (sections s) + 2))) by (apply (HR (zlen (sections s) + 3) _ ltac:(lia) S3 LC)).
  assert (NM : strings = strtab).
  { unfold strings, header. rewrite H3. cbn [shdr_of symtab_fields sh_link].
    rewrite (HR (zlen (sections s) + 2) _ ltac:(lia) S2 LC).
    unfold content. cbn [shdr_of string_fields sh_offset sh_size].
    rewrite <- BL, <- LC, <- !zlen_app.
    replace file with ((((elf_header s ++ hd ++ concat bs) ++ assembled s1) ++ shstr) ++ strtab ++ symtab)
      by (rewrite F, <- !app_assoc; reflexivity).
    apply slice_mid. }
  assert (Y : sym_nth (e_64 e) (e_big e) file symtab' (Z.of_nat j) = Sym o (lb_base lb) 0 16 0 (i + 1)).
  { unfold sym_nth. rewrite H3. cbn [shdr_of symtab_fields sh_offset sh_entsize].
    destruct (concat_nth _ _ _ (sym_size e) _ _ _ _ SB (symbol_length e) NJ) as (b & pre & post & PB & E & L).
    replace file with (((((elf_header s ++ hd ++ concat bs) ++ assembled s1) ++ shstr) ++ strtab ++ pre) ++ b ++ post)
      by (rewrite F, SY, E, <- !app_assoc; reflexivity).
    apply read_symbol; [exact PB|]. rewrite !zlen_app in *. rewrite L. lia. }
  exists (Sym o (lb_base lb) 0 16 0 (i + 1)), (Z.to_nat i), kn, sc.
  split; [exact Y|]. rewrite NM. cbn [sy_name sy_value sy_info sy_shndx].
  split; [exact NA|]. split; [reflexivity|]. split; [reflexivity|]. split; [exact LS|]. split; [exact SC|].
  rewrite Z2Nat.id by lia. reflexivity.
Qed.
Print Assumptions C34_symbols.

(** ** Assembled programs *)

Definition offsets_ok (s : st) : Prop := Forall (fun x : str * section => 0 <= sc_offset (snd x)) (sections s).

Lemma dset_offsets : forall (d : list (str * section)) k sc, Forall (fun x => 0 <= sc_offset (snd x)) d ->
  0 <= sc_offset sc -> Forall (fun x => 0 <= sc_offset (snd x)) (dset str_eqb d k sc).
Proof.
  intros d k sc H O. induction H as [|[k' v] d X H IH]; cbn [dset]; [repeat constructor; auto|].
  destruct (str_eqb k k'); constructor; auto.
Qed.
Lemma close_offsets : forall s, offsets_ok s -> offsets_ok (close_section s).
Proof.
  intros s H. unfold close_section. destruct (current_section s) as [[|x n]|]; auto.
  destruct (dget str_eqb (sections s) (x :: n)) as [sc|] eqn:E; auto.
  unfold offsets_ok. cbn [sections set_sections]. apply dset_offsets; [exact H|]. cbn [sc_offset].
  apply (PyFacts.dget_In str_eqb str_eqb_eq) in E. apply (proj1 (Forall_forall _ _) H _ E).
Qed.
Lemma offsets_event : forall c, plugins_keep sections_untouched c ->
  forall a b, Events.event c (registered c) a b -> offsets_ok a -> offsets_ok b.
Proof.
  intros c [P1 P2] a b E I.
  assert (KEEP : forall a b, sections_untouched a b -> offsets_ok a -> offsets_ok b).
  { clear. intros a b (S & _) H. unfold offsets_ok. rewrite S. exact H. }
  destruct E; try exact I.
  - eapply KEEP; eauto.
  - destruct H as [k H]. eapply KEEP; eauto.
  - apply close_offsets. exact I.
  - cbv zeta. unfold offsets_ok. cbn [sections set_sections]. apply dset_offsets.
    + apply close_offsets. exact I.
    + cbn [sc_offset]. apply zlen_nonneg.
Qed.

Lemma tiled_inside : forall l e k sc size, tiled l e -> nth_error l k = Some sc -> sc_size sc = Some size ->
  (forall x, In x l -> sc_offset x <= e) -> 0 <= size /\ sc_offset sc + size <= e.
Proof.
  induction l as [|a l IH]; intros e k sc size T N S B; [destruct k; discriminate N|].
  destruct T as (T1 & T2 & T3). destruct k as [|k].
  - injection N as ->. rewrite S in T1. injection T1 as ->. split; [lia|].
    destruct l as [|b l]; [lia|]. assert (sc_offset b <= e) by (apply B; right; left; reflexivity). lia.
  - eapply IH; eauto. intros x X. apply B. right. exact X.
Qed.
Lemma tiled_bound : forall l e x, tiled l e -> In x l -> sc_offset x <= e.
Proof.
  induction l as [|a l IH]; intros e x T X; [destruct X|]. destruct T as (T1 & T2 & T3).
  destruct X as [<-|X]; [|eapply IH; eauto]. destruct l as [|b l]; [exact T2|].
  assert (sc_offset b <= e) by (apply (IH e b T3); left; reflexivity). lia.
Qed.

Lemma program_sections : forall c s e file k name sc, tiled (map snd (sections s)) (zlen (assembled s)) -> offsets_ok s ->
  produces c e s file -> nth_error (sections s) k = Some (name, sc) ->
  let header k := shdr_nth (e_64 e) (e_big e) file k in
  let base := (if e_64 e then 64 else 52) + (if e_64 e then 64 else 40) * (zlen (sections s) + 4) in
  let code := slice base (zlen (assembled s)) file in
  exists size, sc_size sc = Some size /\
    content file (header (Z.of_nat k + 1)) = slice (sc_offset sc) size code /\
    zlen (content file (header (Z.of_nat k + 1))) = size /\
    sh_offset (header (Z.of_nat k + 1)) + size =
      (if Nat.eqb (S k) (length (sections s)) then base + zlen (assembled s)
       else sh_offset (header (Z.of_nat k + 2))).
Proof.
  intros c s e file k name sc T O P K header base code.
  destruct (C33_sections _ _ _ _ _ _ _ P K) as (size & SZ & SS & _ & _ & _ & _ & SO & C).
  change (shdr_nth (e_64 e) (e_big e) file (Z.of_nat k + 1)) with (header (Z.of_nat k + 1)) in *.
  fold base in SO, C. fold code in C.
  assert (O1 : 0 <= sc_offset sc).
  { apply nth_error_In in K. apply (proj1 (Forall_forall _ _) O _ K). }
  assert (K' : nth_error (map snd (sections s)) k = Some sc) by (rewrite nth_error_map, K; reflexivity).
  destruct (tiled_inside _ _ _ _ _ T K' SZ (fun x X => tiled_bound _ _ _ T X)) as [Z1 Z2].
  specialize (C O1 Z1 Z2). exists size. split; [exact SZ|]. split; [exact C|]. split.
  - rewrite C. unfold slice, code, zlen in *. unfold slice.
    assert (LF : zlen file >= base + zlen (assembled s)).
    { destruct (C33_layout _ _ _ _ P) as (_ & _ & _ & _ & _ & L1 & L2 & L3 & L4 & L5 & L6).
      take P. pose proof (base_length _ _ _ _ _ _ _ P HD B LN) as BL.
      rewrite F. rewrite !zlen_app in *. change (file_base e (zlen (sections s))) with base in BL.
      pose proof (zlen_nonneg shstr). pose proof (zlen_nonneg strtab). pose proof (zlen_nonneg symtab). lia. }
    assert (0 <= base) by (unfold base; pose proof (zlen_nonneg (sections s)); destruct (e_64 e); lia).
    unfold zlen in *. rewrite firstn_length, skipn_length, firstn_length, skipn_length. lia.
  - rewrite SO. destruct (Nat.eqb (S k) (length (sections s))) eqn:E.
    + apply Nat.eqb_eq in E.
      assert (X : sc_offset sc + size = zlen (assembled s)).
      { clear - T K' SZ E. assert (E' : S k = length (map snd (sections s))) by (rewrite map_length; exact E).
        revert T K' E'. generalize (map snd (sections s)) as l. clear E. revert k.
        induction k as [|k IH]; intros [|a l] T K' E'; try discriminate K'.
        - injection K' as ->. destruct l; [|discriminate E']. destruct T as (T1 & _).
          rewrite SZ in T1. injection T1 as ->. lia.
        - destruct T as (_ & _ & T). apply (IH l T K'). cbn [length] in E'. lia. }
      lia.
    + apply Nat.eqb_neq in E.
      assert (LT : (S k < length (sections s))%nat).
      { assert (k < length (sections s))%nat by (apply nth_error_Some; congruence). lia. }
      destruct (nth_error (sections s) (S k)) as [[name2 sc2]|] eqn:K2; [|apply nth_error_None in K2; lia].
      destruct (C33_sections _ _ _ _ _ _ _ P K2) as (size2 & _ & _ & _ & _ & _ & _ & SO2 & _).
      change (shdr_nth (e_64 e) (e_big e) file (Z.of_nat (S k) + 1)) with (header (Z.of_nat (S k) + 1)) in SO2.
      fold base in SO2. replace (Z.of_nat k + 2) with (Z.of_nat (S k) + 1) by lia.
      rewrite SO2.
      assert (X : sc_offset sc + size = sc_offset sc2).
      { assert (K2' : nth_error (map snd (sections s)) (S k) = Some sc2) by (rewrite nth_error_map, K2; reflexivity).
        clear - T K' K2' SZ. revert T K' K2'. generalize (map snd (sections s)) as l. revert k.
        induction k as [|k IH]; intros [|a [|b l]] T K' E'; try discriminate K'; try discriminate E'.
        - injection K' as ->. injection E' as ->. destruct T as (T1 & _).
          rewrite SZ in T1. injection T1 as ->. lia.
        - destruct T as (_ & _ & T). apply (IH (b :: l) T K'). exact E'. }
      lia.
Qed.

(** A fresh ELF linker: its attributes are part of the state of the model. *)
Definition with_elf (e : elf) (s : st) : st := set_linker s (match elf_ident e with Ok h => h | Err _ => [] end) [].

(** For an assembled program every section header locates exactly the bytes of its
    section, and consecutive sections are consecutive in the file. *)
Theorem C33_program : forall c fuel text defs s0 s e file k name sc, plugins_keep sections_untouched c ->
  history c (fun _ => False) (init_st defs) s0 -> assemble c fuel text s0 = (s, Ok tt) ->
  ~ In [] (map fst (sections s)) ->
  produces c e (with_elf e s) file -> nth_error (sections s) k = Some (name, sc) ->
  let header k := shdr_nth (e_64 e) (e_big e) file k in
  let base := (if e_64 e then 64 else 52) + (if e_64 e then 64 else 40) * (zlen (sections s) + 4) in
  let code := slice base (zlen (assembled s)) file in
  exists size, sc_size sc = Some size /\
    content file (header (Z.of_nat k + 1)) = slice (sc_offset sc) size code /\
    zlen (content file (header (Z.of_nat k + 1))) = size /\
    sh_offset (header (Z.of_nat k + 1)) + size =
      (if Nat.eqb (S k) (length (sections s)) then base + zlen (assembled s)
       else sh_offset (header (Z.of_nat k + 2))).
Proof.
  intros c fuel text defs s0 s e file k name sc PK HI AS NE P. 
  pose proof (C31_tiling _ _ _ _ _ _ PK HI AS NE) as T.
  assert (EV : events c (registered c) (init_st defs) s).
  { assert (E0 : events c (registered c) (init_st defs) s0).
    { clear - HI. remember (init_st defs) as i. induction HI; [constructor| |contradiction].
      eapply events_trans; [apply IHHI; auto|]. apply assemble_registered. }
    eapply events_trans; [exact E0|]. pose proof (assemble_registered c fuel text s0) as E1.
    rewrite AS in E1. exact E1. }
  assert (O : offsets_ok s).
  { apply (events_keep c (registered c) (fun a b => offsets_ok a -> offsets_ok b)) with (a := init_st defs); auto.
    - apply offsets_event. exact PK.
    - constructor. }
  exact (program_sections c (with_elf e s) e file k name sc T O P).
Qed.
Print Assumptions C33_program.

(** A program with two sections and two symbols. *)
Definition elf_start (e : elf) : st :=
  set_linker (init_st []) (match elf_ident e with Ok b => b | Err _ => [] end) [].
Definition elf_state (e : elf) (l : list string) : st := fst (assemble demo 5 (lines l) (elf_start e)).
Definition c33_source : list string :=
  [".section .text RX"; ".export start"; "nop"; "start:"; "ldi there"; ".section .data RW"; ".export there";
   ".db 7"; "there:"; ".db 8"; "hidden:"]%string.
Definition elf_file (e : elf) (s : st) : bytes := assembled (fst (link demo (elf_linker e) s)).

Lemma produces_intro : forall e s, Forall ref_ok (labels_addresses s) -> elf_ident e = Ok (elf_header s) ->
  snd (link demo (elf_linker e) s) = Ok tt -> produces demo e s (elf_file e s).
Proof.
  intros e s R I L. split; [split; reflexivity|]. split; [exact R|]. split; [exact I|].
  exists (fst (link demo (elf_linker e) s)). split; [|reflexivity]. rewrite <- L. apply surjective_pairing.
Qed.
Lemma plain_ref_ok : forall a t n b o, 1 <= b -> ref_ok (a, LabelData t n b 0 o 1 None None None).
Proof. intros. split; [exact H|]. split; [cbn; lia|]. split; [discriminate|]. left; reflexivity. Qed.

Lemma c33_produces : forall e, In e [i386_elf32; x86_64_elf64; ppc_elf32] ->
  produces demo e (elf_state e c33_source) (elf_file e (elf_state e c33_source)).
Proof.
  intros e [<-|[<-|[<-|[]]]]; (apply produces_intro; [|vm_compute; reflexivity|vm_compute; reflexivity]);
    match goal with |- Forall _ ?l => let v := eval vm_compute in l in change l with v end;
    repeat constructor; try (cbn; lia); try discriminate.
Qed.

Example C33_example : forall e, In e [i386_elf32; x86_64_elf64; ppc_elf32] ->
  let s := elf_state e c33_source in
  let file := elf_file e s in
  let header k := shdr_nth (e_64 e) (e_big e) file k in
  produces demo e s file /\
  snd (assemble demo 5 (lines c33_source) (elf_start e)) = Ok tt /\
  map fst (sections s) = [#".text"; #".data"] /\
  content file (header 1) = [234; 1; 5; 0] /\ content file (header 2) = [7; 8] /\
  sh_addr (header 2) = 4 /\ sh_flags (header 1) = 6 /\ sh_flags (header 2) = 3 /\
  zlen file = (if e_64 e then 554 else 382) /\
  map fst (exported_labels s) = [#"start"; #"there"] /\
  sym_nth (e_64 e) (e_big e) file (header 5) 1 = Sym 7 5 0 16 0 2.
Proof.
  intros e I. split; [apply c33_produces; exact I|].
  destruct I as [<-|[<-|[<-|[]]]]; vm_compute; repeat split.
Qed.

(** For C33_program *)
Example C33_program_example : forall e, In e [i386_elf32; x86_64_elf64; ppc_elf32] ->
  let s := fst (assemble demo 5 (lines c33_source) (init_st [])) in
  plugins_keep sections_untouched demo /\ history demo (fun _ => False) (init_st []) (init_st []) /\
  assemble demo 5 (lines c33_source) (init_st []) = (s, Ok tt) /\ ~ In [] (map fst (sections s)) /\
  produces demo e (with_elf e s) (elf_file e (with_elf e s)) /\ map fst (sections s) = [#".text"; #".data"].
Proof.
  intros e I. cbv zeta. split; [apply demo_plugins; intros; repeat split; apply extends_refl|]. split; [constructor|].
  split; [vm_compute; reflexivity|]. split; [vm_compute; intuition discriminate|]. split; [|vm_compute; reflexivity].
  assert (X : with_elf e (fst (assemble demo 5 (lines c33_source) (init_st []))) = elf_state e c33_source) by (destruct I as [<-|[<-|[<-|[]]]]; vm_compute; reflexivity).
  rewrite X. apply c33_produces. exact I.
Qed.

(** The first entry of an ELF symbol table is reserved and must be all zero; the linker
    puts the first exported label there, where readers skip it. *)
Theorem C34_null_symbol_refuted : exists s file,
  produces demo i386_elf32 s file /\
  sym_nth false false file (shdr_nth false false file (zlen (sections s) + 3)) 0 <> Sym 0 0 0 0 0 0.
Proof.
  exists (elf_state i386_elf32 c33_source), (elf_file i386_elf32 (elf_state i386_elf32 c33_source)).
  split; [apply c33_produces; left; reflexivity|]. vm_compute. discriminate.
Qed.
Print Assumptions C34_null_symbol_refuted.

(** In a relocatable file a symbol value is the offset in its section.  The linker stores
    the offset from the origin: here the label is one byte into the second section, whose
    address is 4, and the value is 5. *)
Theorem C34_value_refuted : exists s file,
  produces demo i386_elf32 s file /\
  let symtab := shdr_nth false false file (zlen (sections s) + 3) in
  let y := sym_nth false false file symtab 1 in
  let h := shdr_nth false false file (sy_shndx y) in
  option_map label_address (dget str_eqb (labels s) #"there") = Some (sh_addr h + 1) /\ sy_value y = 5 /\
  sh_size h = 2.
Proof.
  exists (elf_state i386_elf32 c33_source), (elf_file i386_elf32 (elf_state i386_elf32 c33_source)).
  split; [apply c33_produces; left; reflexivity|]. vm_compute. repeat split.
Qed.
Print Assumptions C34_value_refuted.

(** An undefined name is not reported and leaves no trace: the file is the one of a
    program that refers to address 0. *)
Theorem C34_undefined_refuted : exists s0 s,
  s0 = elf_state i386_elf32 [".section .text RX"; "ldi nowhere"]%string /\
  s = elf_state i386_elf32 [".section .text RX"; "ldi 0"]%string /\
  snd (link demo (elf_linker i386_elf32) s0) = Ok tt /\
  snd (link demo dummy_linker s0) = Err (AExc (UnknownLabel #"nowhere")) /\
  elf_file i386_elf32 s0 = elf_file i386_elf32 s.
Proof. eexists. eexists. split; [reflexivity|]. split; [reflexivity|]. vm_compute. repeat split. Qed.
Print Assumptions C34_undefined_refuted.

(** An exported label defined outside every section stops linking with a raw KeyError. *)
Theorem C34_no_section_refuted : exists s,
  s = elf_state i386_elf32 [".export a"; "a:"; "nop"]%string /\
  snd (link demo (elf_linker i386_elf32) s) = Err (PExc KeyError).
Proof. eexists. split; [reflexivity|]. vm_compute. reflexivity. Qed.
Print Assumptions C34_no_section_refuted.

(** Linking twice with the same linker object does not give an ELF file with a
    consistent header: the second header is appended to the first. *)
Theorem C33_relink_refuted : exists s s1,
  s = elf_state i386_elf32 c33_source /\ link demo (elf_linker i386_elf32) s = (s1, Ok tt) /\
  snd (link demo (elf_linker i386_elf32) s1) = Ok tt /\
  let file := elf_file i386_elf32 s1 in
  e_shstrndx false false file = 3 /\ sh_type (shdr_nth false false file 3) <> 3.
Proof.
  exists (elf_state i386_elf32 c33_source), (fst (link demo (elf_linker i386_elf32) (elf_state i386_elf32 c33_source))).
  split; [reflexivity|]. split; [|split].
  - destruct (c33_produces i386_elf32 (or_introl eq_refl)) as (_ & _ & _ & s' & L & _). rewrite L. reflexivity.
  - vm_compute. reflexivity.
  - vm_compute. split; [reflexivity|discriminate].
Qed.
Print Assumptions C33_relink_refuted.
