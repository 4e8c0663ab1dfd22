(** Facts about the ELF linker. *)
From Coq Require Import Lia.
From Verif Require Import Py PyFacts Utils State Assembler SpecUtils UtilsFacts SpecLink LinkFacts Elf SpecElf SpecExec Events
  ExecFacts.
Local Open Scope Z_scope.

(** ** Slices of concatenations *)

Lemma slice_skip : forall A (a b : list A) k n, 0 <= k -> slice (zlen a + k) n (a ++ b) = slice k n b.
Proof.
  intros A a b k n K. unfold slice, zlen. f_equal.
  rewrite skipn_app, skipn_all2 by lia. cbn [app]. f_equal. lia.
Qed.
Lemma slice_skip0 : forall A (a b : list A) n, slice (zlen a) n (a ++ b) = slice 0 n b.
Proof. intros. rewrite <- (slice_skip A a b 0 n) by lia. f_equal. lia. Qed.
Lemma slice_here : forall A (a b : list A), slice 0 (zlen a) (a ++ b) = a.
Proof.
  intros. unfold slice, zlen. rewrite Nat2Z.id. change (Z.to_nat 0) with O. cbn [skipn]. rewrite firstn_app, firstn_all.
  rewrite Nat.sub_diag. apply app_nil_r.
Qed.
Lemma slice_mid : forall A (a b c : list A), slice (zlen a) (zlen b) (a ++ b ++ c) = b.
Proof. intros. rewrite slice_skip0. apply slice_here. Qed.
Lemma slice_inside : forall A (a b : list A) k n, 0 <= k -> 0 <= n -> k + n <= zlen a ->
  slice k n (a ++ b) = slice k n a.
Proof.
  intros A a b k n K N L. unfold slice, zlen in *. rewrite skipn_app, firstn_app.
  rewrite skipn_length. replace (Z.to_nat n - (length a - Z.to_nat k))%nat with O by lia.
  cbn [firstn]. apply app_nil_r.
Qed.

(** ** struct.pack *)

Definition chunk (be : bool) (x : nat * Z) : bytes := int_bytes be (fst x) (snd x).
Definition chunks (be : bool) (l : list (nat * Z)) : bytes := flat_map (chunk be) l.
Definition fits (x : nat * Z) : Prop := 0 <= snd x < 2 ^ (8 * Z.of_nat (fst x)).
Definition width (l : list (nat * Z)) : Z := fold_right (fun x a => Z.of_nat (fst x) + a) 0 l.

Lemma chunks_length : forall be l, zlen (chunks be l) = width l.
Proof.
  induction l as [|x l IH]; [reflexivity|]. unfold chunks. cbn [flat_map width fold_right].
  rewrite zlen_app. unfold chunk at 1. unfold zlen at 1. rewrite int_bytes_length. fold (chunks be l).
  rewrite IH. reflexivity.
Qed.

Lemma pack_chunks : forall be fs vs b, forallb (fun f => negb (sf_signed f)) fs = true ->
  struct_pack be fs vs = Ok b ->
  b = chunks be (combine (map sf_size fs) vs) /\ length fs = length vs /\
  Forall fits (combine (map sf_size fs) vs).
Proof.
  induction fs as [|f fs IH]; intros [|v vs] b U H; cbn [struct_pack] in H; try discriminate.
  - injection H as <-. repeat split. constructor.
  - unfold struct_pack1, rbind in H. cbn [forallb] in U. apply andb_true_iff in U. destruct U as [U1 U2].
    apply negb_true_iff in U1. rewrite U1 in H.
    destruct ((0 <=? v) && (v <? 2 ^ (8 * Z.of_nat (sf_size f)))) eqn:R; [|discriminate].
    destruct (struct_pack be fs vs) as [r|] eqn:E; [|discriminate]. injection H as <-.
    apply IH in E; auto. destruct E as (-> & L & F). cbn [map combine length]. split; [reflexivity|].
    split; [lia|]. constructor; auto. unfold fits. cbn [fst snd].
    apply andb_true_iff in R. destruct R as [R1 R2]. apply Z.leb_le in R1. apply Z.ltb_lt in R2. lia.
Qed.

Lemma word_chunks : forall be pre l post i n v off, nth_error l i = Some (n, v) -> Forall fits l ->
  off = zlen pre + width (firstn i l) ->
  word be (pre ++ chunks be l ++ post) off (Z.of_nat n) = v.
Proof.
  intros be pre l post i n v off N F ->. unfold word.
  assert (E : chunks be l = chunks be (firstn i l) ++ chunk be (n, v) ++ chunks be (skipn (S i) l)).
  { clear F. revert l N. induction i; intros [|x l] N; try discriminate N.
    - injection N as ->. reflexivity.
    - cbn [firstn skipn]. unfold chunks at 1 2. cbn [flat_map]. fold (chunks be l).
      rewrite (IHi l N). rewrite <- !app_assoc. reflexivity. }
  rewrite E. rewrite slice_skip by (rewrite <- (chunks_length be); apply zlen_nonneg).
  rewrite <- !app_assoc. rewrite <- (chunks_length be). rewrite slice_skip0.
  replace (Z.of_nat n) with (zlen (chunk be (n, v))) by (unfold chunk, zlen; rewrite int_bytes_length; reflexivity).
  rewrite slice_here. unfold chunk. cbn [fst snd]. rewrite read_int_bytes, pow256_bits.
  assert (K : fits (n, v)) by (eapply Forall_forall; [exact F|]; eapply nth_error_In; eauto).
  unfold fits in K. cbn [fst snd] in K. apply Z.mod_small. exact K.
Qed.

Ltac word_at F k :=
  match goal with |- word ?be (?pre ++ chunks ?be ?l ++ ?post) ?off ?n = ?v =>
    apply (word_chunks be pre l post k (Z.to_nat n) v off);
      [reflexivity|exact F|cbn [firstn width fold_right fst Z.of_nat Pos.of_succ_nat Pos.succ]; lia] end.

(** ** Section headers *)

Definition shdr_of (l : list Z) : shdr :=
  match l with
  | [a; b; c; d; e; f; g; h; i; j] => Shdr a b c d e f g h i j
  | _ => Shdr 0 0 0 0 0 0 0 0 0 0
  end.

Lemma format_unsigned : forall e, forallb (fun f => negb (sf_signed f)) (section_pack_format e) = true.
Proof. intros e. unfold section_pack_format. destruct (e_64 e); reflexivity. Qed.

Lemma format_length : forall e l b, pack (e_big e) (section_pack_format e) l = Ok b ->
  zlen b = section_header_size e.
Proof.
  intros e l b H. apply pack_chunks in H; [|apply format_unsigned]. destruct H as (-> & L & _).
  rewrite chunks_length. unfold section_pack_format, section_header_size in *.
  destruct (e_64 e); do 10 (destruct l as [|? l]; [discriminate L|]); destruct l; try discriminate L; reflexivity.
Qed.

Lemma read_shdr : forall e l b pre post a, pack (e_big e) (section_pack_format e) l = Ok b ->
  a = zlen pre -> shdr_at (e_64 e) (e_big e) (pre ++ b ++ post) a = shdr_of l.
Proof.
  intros e l b pre post a H ->. apply pack_chunks in H; [|apply format_unsigned].
  destruct H as (-> & L & F). unfold shdr_at. unfold section_pack_format in *.
  destruct (e_64 e); do 10 (destruct l as [|? l]; [discriminate L|]); destruct l; try discriminate L;
    cbn [map sf_size combine] in *; cbn [shdr_of]; f_equal.
  all: solve [word_at F 0%nat | word_at F 1%nat | word_at F 2%nat | word_at F 3%nat | word_at F 4%nat
    | word_at F 5%nat | word_at F 6%nat | word_at F 7%nat | word_at F 8%nat | word_at F 9%nat].
Qed.

Definition packed (e : elf) (l : list Z) (b : bytes) : Prop :=
  pack (e_big e) (section_pack_format e) l = Ok b.

Lemma concat_nth : forall A B (R : A -> list B -> Prop) w ls bs k l, Forall2 R ls bs ->
  (forall l b, R l b -> zlen b = w) -> nth_error ls k = Some l ->
  exists b pre post, R l b /\ concat bs = pre ++ b ++ post /\ zlen pre = Z.of_nat k * w.
Proof.
  intros A B R w ls bs k l H W. revert k. induction H as [|x b ls bs X H IH]; intros [|k] N; try discriminate N.
  - injection N as ->. exists b, [], (concat bs). auto.
  - destruct (IH k N) as (b' & pre & post & R' & E & L). exists b', (b ++ pre), post. split; auto.
    cbn [concat]. rewrite E, <- app_assoc. split; auto. rewrite zlen_app, L, (W _ _ X). lia.
Qed.
Lemma concat_length : forall A B (R : A -> list B -> Prop) w ls bs, Forall2 R ls bs ->
  (forall l b, R l b -> zlen b = w) -> zlen (concat bs) = zlen ls * w.
Proof.
  intros A B R w ls bs H W. induction H as [|x b ls bs X H IH]; [reflexivity|].
  cbn [concat]. rewrite zlen_app, IH, (W _ _ X), zlen_cons. lia.
Qed.

(** ** Names *)

Lemma add_names_spec : forall names table offs table', add_names names table = (offs, table') ->
  length offs = length names /\ (exists x, table' = table ++ x) /\
  forall k n, nth_error names k = Some n ->
    exists a b, nth_error offs k = Some (zlen a) /\ table' = a ++ (encode_utf8 n ++ [0]) ++ b.
Proof.
  induction names as [|n names IH]; intros table offs table' H; cbn [add_names] in H.
  - injection H as <- <-. split; auto. split; [exists []; symmetry; apply app_nil_r|].
    intros [|k] n H; discriminate H.
  - destruct (add_names names (table ++ encode_utf8 n ++ [0])) as [offs' t'] eqn:E.
    injection H as <- <-. apply IH in E. destruct E as (L & (x & X) & N).
    split; [cbn [length]; lia|]. split; [exists ((encode_utf8 n ++ [0]) ++ x); rewrite X, <- !app_assoc; reflexivity|].
    intros [|k] m H.
    + injection H as <-. exists table, x. split; auto. rewrite X, <- !app_assoc. reflexivity.
    + apply N. exact H.
Qed.

Lemma name_at_intro : forall a n b, name_at (a ++ (encode_utf8 n ++ [0]) ++ b) (zlen a) n.
Proof.
  intros a n b. unfold name_at.
  replace (zlen (encode_utf8 n) + 1) with (zlen (encode_utf8 n ++ [0])) by (rewrite zlen_app; reflexivity).
  apply slice_mid.
Qed.

Lemma key_index_spec : forall V (l : list (str * V)) k i, key_index l k = Some i ->
  0 <= i /\ exists v, nth_error l (Z.to_nat i) = Some (k, v).
Proof.
  induction l as [|[k' v] l IH]; intros k i H; cbn [key_index] in H; [discriminate|].
  destruct (str_eqb k k') eqn:E.
  - injection H as <-. apply str_eqb_eq in E. subst k'. split; [lia|]. exists v. reflexivity.
  - destruct (key_index l k) as [j|] eqn:J; [|discriminate]. injection H as <-.
    apply IH in J. destruct J as [J (w & W)]. split; [lia|]. exists w.
    replace (Z.to_nat (j + 1)) with (S (Z.to_nat j)) by lia. exact W.
Qed.

(** ** Sections *)

Lemma flags_spec : forall perms,
  let flag c v f := if chr_in c perms then Z.lor f v else f in
  flags_of perms (flag "E"%char 4 (flag "X"%char 4 (flag "W"%char 1 (flag "R"%char 2 0)))).
Proof.
  intros perms. cbv zeta. unfold flags_of. rewrite <- !chr_in_In.
  destruct (chr_in "R" perms), (chr_in "W" perms), (chr_in "X" perms), (chr_in "E" perms);
    cbv -[Z.lt Z.le iff]; repeat split; intros; try lia; try tauto; try discriminate; auto;
    try (destruct H; discriminate).
Qed.

Definition section_fields (e : elf) (fb o : Z) (sc : section) (size flags : Z) : list Z :=
  [o; if size =? 0 then 8 else 1; flags; sc_start sc; fb + sc_offset sc; size; 0; 0; e_align e; 0].

Lemma sections_spec : forall e fb scs offs secs, length offs = length scs ->
  build_sections e fb offs scs = Ok secs ->
  exists ls bs, secs = concat bs /\ Forall2 (packed e) ls bs /\ length ls = length scs /\
    forall k name sc, nth_error scs k = Some (name, sc) ->
      exists o size flags, nth_error offs k = Some o /\ sc_size sc = Some size /\
        flags_of (sc_permissions sc) flags /\ nth_error ls k = Some (section_fields e fb o sc size flags).
Proof.
  intros e fb. induction scs as [|[n sc] scs IH]; intros [|o offs] secs L H; try discriminate L.
  - injection H as <-. exists [], []. repeat split; auto. intros [|k] ? ? H; discriminate H.
  - cbn [build_sections] in H. unfold rbind in H.
    destruct (build_section e fb o sc) as [b|] eqn:B; [|discriminate].
    destruct (build_sections e fb offs scs) as [r|] eqn:R; [|discriminate]. injection H as <-.
    apply IH in R; [|cbn [length] in L; lia]. destruct R as (ls & bs & -> & F & LL & N).
    unfold build_section in B. destruct (sc_size sc) as [size|] eqn:S; [|discriminate]. cbv zeta in B.
    pose proof (flags_spec (sc_permissions sc)) as FL. cbv zeta in FL.
    match type of FL with flags_of _ ?f => set (flags := f) in * end.
    exists (section_fields e fb o sc size flags :: ls), (b :: bs). split; [reflexivity|].
    split; [constructor; [exact B|exact F]|]. split; [cbn [length]; lia|].
    intros [|k] name sc' H.
    + injection H as <- <-. exists o, size, flags. repeat split; auto; apply FL.
    + apply N in H. exact H.
Qed.

(** ** Symbols *)

Definition sym_size (e : elf) : Z := if e_64 e then 24 else 16.
Definition symbol_packed (e : elf) (x : (Z * Z) * Z) (b : bytes) : Prop :=
  let '((o, i), base) := x in
  (if e_64 e then pack (e_big e) [FI; FB; FB; FH; FQ; FQ] [o; 0x10; 0; i + 1; base; 0]
   else pack (e_big e) [FI; FI; FI; FB; FB; FH] [o; base; 0; 0x10; 0; i + 1]) = Ok b.

Lemma symbol_length : forall e x b, symbol_packed e x b -> zlen b = sym_size e.
Proof.
  intros e [[o i] base] b H. unfold symbol_packed in H. unfold sym_size.
  destruct (e_64 e); apply pack_chunks in H; try reflexivity; destruct H as (-> & _ & _);
    rewrite chunks_length; reflexivity.
Qed.

Lemma read_symbol : forall e o i base b pre post a, symbol_packed e ((o, i), base) b -> a = zlen pre ->
  sym_at (e_64 e) (e_big e) (pre ++ b ++ post) a = Sym o base 0 16 0 (i + 1).
Proof.
  intros e o i base b pre post a H ->. unfold symbol_packed in H. unfold sym_at.
  destruct (e_64 e); apply pack_chunks in H; try reflexivity; destruct H as (-> & L & F);
    cbn [map sf_size combine] in *; f_equal.
  all: solve [word_at F 0%nat | word_at F 1%nat | word_at F 2%nat | word_at F 3%nat | word_at F 4%nat
    | word_at F 5%nat].
Qed.

Lemma symtab_spec : forall e scs syms offs symtab, length offs = length syms ->
  build_symtab e scs offs syms = Ok symtab ->
  exists ls bs, symtab = concat bs /\ Forall2 (symbol_packed e) ls bs /\ length ls = length syms /\
    forall j name lb, nth_error syms j = Some (name, lb) ->
      exists o i k, nth_error offs j = Some o /\ lb_section lb = Some k /\ key_index scs k = Some i /\
        nth_error ls j = Some ((o, i), lb_base lb).
Proof.
  intros e scs. induction syms as [|[n lb] syms IH]; intros [|o offs] symtab L H; try discriminate L.
  - injection H as <-. exists [], []. repeat split; auto. intros [|k] ? ? H; discriminate H.
  - cbn [build_symtab] in H. unfold rbind in H.
    destruct (build_symbol e scs o lb) as [b|] eqn:B; [|discriminate].
    destruct (build_symtab e scs offs syms) as [r|] eqn:R; [|discriminate]. injection H as <-.
    apply IH in R; [|cbn [length] in L; lia]. destruct R as (ls & bs & -> & F & LL & N).
    unfold build_symbol in B. destruct (lb_section lb) as [k|] eqn:K; [|discriminate].
    destruct (key_index scs k) as [i|] eqn:I; [|discriminate].
    exists (((o, i), lb_base lb) :: ls), (b :: bs). split; [reflexivity|].
    split; [constructor; auto|]. split; [cbn [length]; lia|].
    intros [|j] name lb' H.
    + injection H as <- <-. exists o, i, k. repeat split; auto.
    + apply N in H. exact H.
Qed.

(** ** The whole file *)

Definition file_base (e : elf) (n : Z) : Z := header_size e + section_header_size e * (n + 4).

Lemma ident_spec : forall e b, elf_ident e = Ok b ->
  zlen b = 24 /\ firstn 7 b = [127; 69; 76; 70; if e_64 e then 2 else 1; if e_big e then 2 else 1; 1].
Proof.
  intros e b H. unfold elf_ident, pack in H.
  destruct (struct_pack (e_big e) [FB; FB; FB; FB] _) as [x|] eqn:X; [|discriminate].
  cbn [rbind] in H.
  destruct (struct_pack (e_big e) [FH; FH; FI] _) as [y|] eqn:Y; [|discriminate].
  cbn [rbind] in H. injection H as <-.
  apply pack_chunks in Y; [|reflexivity]. destruct Y as (-> & _ & _).
  assert (W : zlen (chunks (e_big e) (combine (map sf_size [FH; FH; FI]) [e_type e; e_machine e; 1])) = 8)
    by (rewrite chunks_length; reflexivity).
  destruct (e_64 e), (e_big e); vm_compute in X; injection X as <-; split; try reflexivity;
    rewrite !zlen_cons, !zlen_app, !zlen_cons in *; cbn [app] in *; rewrite W; reflexivity.
Qed.

Lemma header_spec : forall e n hd id post, build_header e n = Ok hd -> zlen id = 24 ->
  let file := id ++ hd ++ post in
  zlen (id ++ hd) = header_size e /\
  e_shoff (e_64 e) (e_big e) file = header_size e /\
  e_ehsize (e_64 e) (e_big e) file = header_size e /\
  e_shentsize (e_64 e) (e_big e) file = section_header_size e /\
  e_shnum (e_64 e) (e_big e) file = n + 4 /\ e_shstrndx (e_64 e) (e_big e) file = n + 1.
Proof.
  intros e n hd id post H L file. unfold build_header in H.
  unfold e_shoff, e_ehsize, e_shentsize, e_shnum, e_shstrndx, header_size, section_header_size in *.
  subst file.
  destruct (e_64 e); apply pack_chunks in H; try reflexivity; destruct H as (-> & _ & F);
    cbn [map sf_size combine] in *; rewrite zlen_app, chunks_length, L; split; try reflexivity;
    repeat split.
  all: solve [word_at F 0%nat | word_at F 1%nat | word_at F 2%nat | word_at F 3%nat | word_at F 4%nat
    | word_at F 5%nat | word_at F 6%nat | word_at F 7%nat | word_at F 8%nat | word_at F 9%nat].
Qed.

Definition zeros : list Z := [0; 0; 0; 0; 0; 0; 0; 0; 0; 0].
Definition string_fields (o off len : Z) : list Z := [o; 3; 32; 0; off; len; 0; 0; 0; 0].
Definition symtab_fields (e : elf) (o off len lnk : Z) : list Z :=
  [o; 2; 0; 0; off; len; lnk; 0; 0; sym_size e].

Lemma Forall2_app' : forall A B (R : A -> B -> Prop) l1 l2 m1 m2, Forall2 R l1 m1 -> Forall2 R l2 m2 ->
  Forall2 R (l1 ++ l2) (m1 ++ m2).
Proof. intros. induction H; cbn [app]; auto. Qed.

Lemma exported_eq : forall s, exported s = exported_labels s.
Proof.
  intros s. unfold exported, exported_labels. induction (labels s) as [|[n l] t IH]; cbn [filter fst]; auto.
  rewrite IH. reflexivity.
Qed.

Lemma elf_layout : forall e s h out, elf_link_bytes e s = Ok (h, out) ->
  exists hd ls bs shstr strtab symtab sls sbs,
    let n := length (sections s) in
    let base := file_base e (Z.of_nat n) in
    let code := zlen (assembled s) in
    out = elf_header s ++ hd ++ concat bs ++ assembled s ++ shstr ++ strtab ++ symtab /\
    build_header e (Z.of_nat n) = Ok hd /\
    Forall2 (packed e) ls bs /\ length ls = (n + 4)%nat /\
    nth_error ls 0 = Some zeros /\
    (forall k name sc, nth_error (sections s) k = Some (name, sc) ->
      exists o size flags, sc_size sc = Some size /\ flags_of (sc_permissions sc) flags /\
        nth_error ls (S k) = Some (section_fields e base o sc size flags) /\ name_at shstr o name) /\
    (exists o1 o2 o3,
      nth_error ls (n + 1) = Some (string_fields o1 (base + code) (zlen shstr)) /\
      nth_error ls (n + 2) = Some (string_fields o2 (base + code + zlen shstr) (zlen strtab)) /\
      nth_error ls (n + 3) = Some (symtab_fields e o3 (base + code + zlen shstr + zlen strtab) (zlen symtab)
                                     (Z.of_nat n + 2)) /\
      name_at shstr o1 #".shstrtab" /\ name_at shstr o2 #".strtab" /\ name_at shstr o3 #".symtab") /\
    symtab = concat sbs /\ Forall2 (symbol_packed e) sls sbs /\
    length sls = length (exported_labels s) /\
    forall j name lb, nth_error (exported_labels s) j = Some (name, lb) ->
      exists o i k, lb_section lb = Some k /\ key_index (sections s) k = Some i /\
        nth_error sls j = Some ((o, i), lb_base lb) /\ name_at strtab o name.
Proof.
  intros e s h out H. unfold elf_link_bytes in H. cbv zeta in H.
  destruct (add_names (map fst (sections s)) [0]) as [offs t0] eqn:A.
  destruct (add_names (map fst (exported s)) [0]) as [soffs strtab] eqn:B.
  set (t1 := t0 ++ encode_utf8 #".shstrtab" ++ [0]) in *.
  set (t2 := t1 ++ encode_utf8 #".strtab" ++ [0]) in *.
  set (t3 := t2 ++ encode_utf8 #".symtab" ++ [0]) in *.
  change (header_size e + section_header_size e * (zlen (sections s) + 4)) with (file_base e (zlen (sections s))) in H.
  unfold rbind in H.
  destruct (build_null_section e) as [null|] eqn:E0; [|discriminate].
  destruct (build_sections e _ offs (sections s)) as [secs|] eqn:E1; [|discriminate].
  destruct (build_symtab e (sections s) soffs (exported s)) as [symtab|] eqn:E2; [|discriminate].
  destruct (build_string_section e (zlen t0) _ t3) as [h1|] eqn:E3; [|discriminate].
  destruct (build_string_section e (zlen t1) _ strtab) as [h2|] eqn:E4; [|discriminate].
  destruct (build_symtab_section e (zlen t2) _ symtab _) as [h3|] eqn:E5; [|discriminate].
  destruct (build_header e (zlen (sections s))) as [hd|] eqn:E6; [|discriminate].
  injection H as _ <-.
  apply add_names_spec in A. destruct A as (LA & _ & NA).
  apply add_names_spec in B. destruct B as (LB & _ & NB).
  rewrite map_length in LA, LB. rewrite exported_eq in *.
  apply sections_spec in E1; [|exact LA]. destruct E1 as (ls & bs & -> & F & LL & N).
  apply symtab_spec in E2; [|exact LB]. destruct E2 as (sls & sbs & -> & SF & SL & SN).
  exists hd, (zeros :: ls ++ [string_fields (zlen t0) (file_base e (zlen (sections s)) + zlen (assembled s)) (zlen t3);
    string_fields (zlen t1) (file_base e (zlen (sections s)) + zlen (assembled s) + zlen t3) (zlen strtab);
    symtab_fields e (zlen t2) (file_base e (zlen (sections s)) + zlen (assembled s) + zlen t3 + zlen strtab)
      (zlen (concat sbs)) (zlen (sections s) + 2)]), (null :: bs ++ [h1; h2; h3]), t3, strtab, (concat sbs), sls, sbs.
  cbv zeta. change (Z.of_nat (length (sections s))) with (zlen (sections s)).
  split. { cbn [concat]. rewrite concat_app. cbn [concat]. rewrite <- !app_assoc. cbn [app]. reflexivity. }
  split; [exact E6|].
  split. { constructor; [exact E0|]. apply Forall2_app'; auto. }
  split. { cbn [length]. rewrite app_length. cbn [length]. lia. }
  split; [reflexivity|].
  split.
  { intros k name sc H. destruct (N k name sc H) as (o & size & flags & O & S & FL & K).
    exists o, size, flags. split; auto. split; auto. split.
    - cbn [nth_error]. rewrite nth_error_app1; [exact K|]. apply nth_error_Some. congruence.
    - destruct (NA k name) as (a & b & OA & TA).
      { rewrite nth_error_map, H. reflexivity. }
      rewrite OA in O. injection O as <-. unfold t3, t2, t1. rewrite TA, <- !app_assoc.
      rewrite (app_assoc (encode_utf8 name)). apply name_at_intro. }
  split.
  { exists (zlen t0), (zlen t1), (zlen t2).
    replace (length (sections s) + 1)%nat with (S (length ls)) by lia.
    replace (length (sections s) + 2)%nat with (S (length ls + 1)) by lia.
    replace (length (sections s) + 3)%nat with (S (length ls + 2)) by lia.
    cbn [nth_error]. rewrite !nth_error_app2 by lia.
    replace (length ls - length ls)%nat with 0%nat by lia.
    replace (length ls + 1 - length ls)%nat with 1%nat by lia.
    replace (length ls + 2 - length ls)%nat with 2%nat by lia.
    split; [reflexivity|]. split; [reflexivity|]. split; [reflexivity|].
    repeat split.
    - unfold t3, t2, t1. rewrite <- !app_assoc. rewrite (app_assoc (encode_utf8 #".shstrtab")). apply name_at_intro.
    - unfold t3, t2. rewrite <- !app_assoc. rewrite (app_assoc (encode_utf8 #".strtab")). apply name_at_intro.
    - unfold t3. rewrite <- (app_nil_r (encode_utf8 #".symtab" ++ [0])). apply name_at_intro. }
  split; [reflexivity|]. split; [exact SF|]. split; [exact SL|].
  intros j name lb H. destruct (SN j name lb H) as (o & i & k & O & S & I & K).
  exists o, i, k. split; auto. split; auto. split; auto.
  destruct (NB j name) as (a & b & OA & TA).
  { rewrite nth_error_map, H. reflexivity. }
  rewrite OA in O. injection O as <-. rewrite TA. apply name_at_intro.
Qed.

(** ** Linking *)

Definition elf_same (s s' : st) : Prop :=
  labels s' = labels s /\ sections s' = sections s /\ exports s' = exports s /\
  elf_header s' = elf_header s /\ labels_addresses s' = labels_addresses s.

Lemma elf_same_resolve : forall p e l s,
  elf_same s (fst (iter (fun '(a, d) => resolve_one p (elf_linker e) a d) l s)).
Proof.
  intros p e l s. apply (kept_iter elf_same).
  - intros x. repeat split.
  - intros a b d (A1 & A2 & A3 & A4 & A5) (B1 & B2 & B3 & B4 & B5). repeat split; congruence.
  - intros [a d] _. apply kept_resolve.
    + intros x. repeat split.
    + intros a' b d' (A1 & A2 & A3 & A4 & A5) (B1 & B2 & B3 & B4 & B5). repeat split; congruence.
    + intros x out. repeat split.
    + intros a' d' x. repeat split.
Qed.

Lemma performs_length : forall l s s', performs l s = (s', Ok tt) -> zlen (assembled s') = zlen (assembled s).
Proof.
  intros l s s' H. rewrite performs_eq in H.
  destruct (perform (assembled s) l) as [out [e|]] eqn:P; cbn [fst snd] in H; [discriminate|].
  injection H as <-. cbn. unfold zlen. f_equal. apply (perform_spec _ _ _ P).
Qed.

Lemma resolve_length : forall p lk a d s s', (forall a d s, zlen (assembled (fst (lk_resolve lk a d s))) = zlen (assembled s)) ->
  ref_ok (a, d) -> resolve_one p lk a d s = (s', Ok tt) -> zlen (assembled s') = zlen (assembled s).
Proof.
  intros p lk a d s s' K (_ & _ & _ & HK) H. unfold resolve_one in H. cbv zeta in H.
  unfold m_label_absolute in H. unfold bind at 1 in H.
  destruct (label_absolute p (labels s) (ld_label d)) as [ab|]; [|discriminate].
  unfold bind at 1 in H.
  match type of H with match ?X with pair _ _ => _ end = _ => destruct X as [s0 [t|]] eqn:E; [|discriminate] end.
  assert (s0 = s) by (destruct (negb (ld_relative d =? 0)); unfold ret, lift in E; cbn beta in E; congruence). subst s0. clear E.
  unfold bind at 1 in H.
  match type of H with match ?X with pair _ _ => _ end = _ => destruct X as [s1 [[v ab']|]] eqn:E; [|discriminate] end.
  assert (L1 : zlen (assembled s1) = zlen (assembled s)).
  { destruct t; [unfold ret in E; congruence|]. unfold bind, ret in E. specialize (K a d s).
    destruct (lk_resolve lk a d s) as [s2 [w|]]; [|discriminate]. cbn in K. congruence. }
  rewrite <- L1. clear E L1. cbn [snd fst] in *.
  destruct HK as [HK|[w HK]]; rewrite HK in H.
  - unfold bind at 1 in H. destruct ab' as [x|]; [|discriminate]. unfold ret at 1 in H.
    repeat match type of H with (if ?b then _ else _) _ = _ => destruct b; [discriminate|] end.
    unfold bind at 1 in H.
    match type of H with match ?X with pair _ _ => _ end = _ => destruct X as [s3 [u|]] eqn:E; [|discriminate] end.
    assert (s3 = s1) by (destruct (ld_bits d); unfold ret, lift in E; cbn beta in E; congruence). subst s3.
    change 0 with (Z.of_nat 0) in H. rewrite patch_performs in H. apply performs_length in H. exact H.
  - rewrite hook_performs in H. apply performs_length in H. exact H.
Qed.

Lemma iter_length : forall p lk l s s', (forall a d s, zlen (assembled (fst (lk_resolve lk a d s))) = zlen (assembled s)) ->
  Forall ref_ok l -> iter (fun '(a, d) => resolve_one p lk a d) l s = (s', Ok tt) ->
  zlen (assembled s') = zlen (assembled s).
Proof.
  intros p lk. induction l as [|[a d] l IH]; intros s s' K F H; cbn [iter] in H.
  - injection H as <-. reflexivity.
  - inversion F; subst. unfold bind in H.
    destruct (resolve_one p lk a d s) as [s1 [[]|]] eqn:E; [|discriminate].
    apply IH in H; auto. rewrite H. eapply resolve_length; eauto.
Qed.

Lemma elf_link_inv : forall c e s s', no_passes c -> Forall ref_ok (labels_addresses s) ->
  link c (elf_linker e) s = (s', Ok tt) ->
  exists s1 h, resolve_labels (c_p c) (elf_linker e) s = (s1, Ok tt) /\ elf_same s s1 /\
    zlen (assembled s1) = zlen (assembled s) /\ elf_link_bytes e s1 = Ok (h, assembled s').
Proof.
  intros c e s s' [P1 P2] RO H. unfold link in H. rewrite P1, P2 in H. cbn [iter] in H.
  unfold bind at 1, ret at 1 in H. unfold bind at 1 in H.
  destruct (resolve_labels (c_p c) (elf_linker e) s) as [s1 [[]|]] eqn:E; [|discriminate].
  unfold bind at 1, ret at 1 in H. unfold bind at 1 in H. cbn [lk_link elf_linker] in H.
  unfold elf_link in H. unfold bind, get, lift in H.
  destruct (elf_link_bytes e s1) as [[h out]|] eqn:B; [|discriminate].
  unfold modify, ret in H. injection H as <-. exists s1, h. split; auto.
  unfold resolve_labels, bind, get in E. split.
  { pose proof (elf_same_resolve (c_p c) e (labels_addresses s) s) as X. rewrite E in X. exact X. }
  split; [|exact B]. eapply iter_length; [|exact RO|exact E]. reflexivity.
Qed.

(** If the default linker resolves everything, the ELF linker patches the same bytes. *)
Lemma resolve_same : forall p e a d s s', resolve_one p dummy_linker a d s = (s', Ok tt) ->
  resolve_one p (elf_linker e) a d s = (s', Ok tt).
Proof.
  intros p e a d s s' H. unfold resolve_one in *. cbv zeta in *. unfold m_label_absolute in *.
  unfold bind at 1 in H. unfold bind at 1.
  destruct (label_absolute p (labels s) (ld_label d)) as [ab|]; [|discriminate].
  unfold bind at 1 in H. unfold bind at 1.
  match type of H with match ?X with pair _ _ => _ end = _ => destruct X as [s0 [t|]]; [|discriminate] end.
  unfold bind at 1 in H. unfold bind at 1.
  destruct t as [v|]; [exact H|]. discriminate H.
Qed.
Lemma iter_same : forall p e l s s', iter (fun '(a, d) => resolve_one p dummy_linker a d) l s = (s', Ok tt) ->
  iter (fun '(a, d) => resolve_one p (elf_linker e) a d) l s = (s', Ok tt).
Proof.
  intros p e. induction l as [|[a d] l IH]; intros s s' H; cbn [iter] in *; auto.
  unfold bind in *. destruct (resolve_one p dummy_linker a d s) as [s1 [[]|]] eqn:E; [|discriminate].
  rewrite (resolve_same _ e _ _ _ _ E). apply IH. exact H.
Qed.
