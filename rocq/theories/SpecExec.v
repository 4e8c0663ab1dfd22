(** Vocabulary for statements about runs of the assembler: what opcode handlers,
    extra directives and linkers are required to leave alone, and histories. *)
From Verif Require Import Py Tokenizer State Assembler SpecUtils SpecSubst.
Local Open Scope Z_scope.

(** Everything a user can plug into an assembler keeps the relation R. *)
Definition plugins_keep (R : st -> st -> Prop) (c : cfg) : Prop :=
  (forall k f tokens s, dget str_eqb (c_instructions c) k = Some (OFun f) ->
     R s (fst (f tokens s))) /\
  (forall k f tokens s, dget str_eqb (c_directives c) k = Some (D_custom f) ->
     R s (fst (f tokens s))).
Definition passes_keep (R : st -> st -> Prop) (c : cfg) : Prop :=
  forall m s, In m (c_pre_link c ++ c_post_link c) -> R s (fst (m s)).
Definition linker_keeps (R : st -> st -> Prop) (lk : linker) : Prop :=
  (forall a d s, R s (fst (lk_resolve lk a d s))) /\ (forall s, R s (fst (lk_link lk s))).

(** Everything that can happen to an assembler: calls of assemble and link, in any
    order, successful or not. *)
Inductive history (c : cfg) (lks : linker -> Prop) : st -> st -> Prop :=
| h_start s : history c lks s s
| h_assemble s1 s2 fuel text : history c lks s1 s2 ->
    history c lks s1 (fst (assemble c fuel text s2))
| h_link s1 s2 lk : history c lks s1 s2 -> lks lk -> history c lks s1 (fst (link c lk s2)).

(** [extends a b]: a is a prefix of b. *)
Definition extends {A} (a b : list A) : Prop := exists t, b = a ++ t.

(** The tables hold bytes, files hold bytes, handlers return bytes. *)
Definition byte_tables (c : cfg) : Prop :=
  (forall k b, dget str_eqb (c_instructions c) k = Some (OStatic b) -> Forall is_byte b) /\
  (forall n b, file_bytes (c_env c) n = Some b -> Forall is_byte b) /\
  (forall k f tokens s b, dget str_eqb (c_instructions c) k = Some (OFun f) ->
     snd (f tokens s) = Ok (Some b) -> Forall is_byte b).

(** Text hooks write bytes. *)
Definition byte_hooks (refs : list (Z * labeldata)) : Prop :=
  forall a d h addr v out, In (a, d) refs -> ld_hook d = Some h ->
    Forall is_byte out -> Forall is_byte (fst (h addr v out)).
Definition byte_state (s : st) : Prop :=
  Forall is_byte (assembled s) /\ byte_hooks (labels_addresses s).

(** [tiled l e]: consecutive sections, each ending where the next one starts and the
    last one ending at e. *)
Fixpoint tiled (l : list section) (e : Z) : Prop :=
  match l with
  | [] => True
  | a :: t =>
      let stop := match t with b :: _ => sc_offset b | [] => e end in
      sc_size a = Some (stop - sc_offset a) /\ sc_offset a <= stop /\ tiled t e
  end.

(** A section keeps its name, start address, file offset and permissions. *)
Definition same_section (a b : section) : Prop :=
  sc_start a = sc_start b /\ sc_offset a = sc_offset b /\ sc_permissions a = sc_permissions b.
Definition sections_persist (s s' : st) : Prop :=
  forall name sc, dget str_eqb (sections s) name = Some sc ->
    exists sc', dget str_eqb (sections s') name = Some sc' /\ same_section sc sc'.

(** Plug-ins leave sections and exports alone and only append output. *)
Definition sections_untouched (s s' : st) : Prop :=
  sections s' = sections s /\ current_section s' = current_section s /\
  exports s' = exports s /\ extends (assembled s) (assembled s').

(** ** Statements *)

(** The operands of a statement after replacement of defined names. *)
Definition reads (s : st) (ops ops' : list str) : Prop := Forall2 (substituted (defines s)) ops ops'.

(** The directive called by the token t0, which starts with a dot. *)
Definition names (c : cfg) (t0 : str) (d : directive) : Prop :=
  dget str_eqb (c_directives c)
    (if case_sensitive (c_p c) then skipn 1 t0 else upper (skipn 1 t0)) = Some d.

(** The table key of an instruction or macro name. *)
Definition op_key (c : cfg) (t0 : str) : str := if case_sensitive (c_p c) then t0 else upper t0.

(** A string operand: quoted or bare. *)
Inductive string_operand : str -> str -> Prop :=
| so_quoted q t : q = dquote \/ q = squote -> string_operand (q :: t ++ [q]) t
| so_bare c t : c <> dquote -> c <> squote -> string_operand (c :: t) (c :: t).

(** No statement of the text, nor of any file it may include, is a directive d with
    n operands such that bad d n. *)
Definition text_free (c : cfg) (bad : directive -> nat -> Prop) (text : str) : Prop :=
  forall ss l t0 ops d, tokenize text = Ok ss -> In (Stmt KDirective (t0 :: ops) l) ss ->
    names c t0 d -> ~ bad d (length ops).
Definition program_free (c : cfg) (bad : directive -> nat -> Prop) (text : str) : Prop :=
  text_free c bad text /\
  forall n t, file_text (c_env c) n = Some t -> text_free c bad t.

(** Directives that move the origin, and those that reserve memory. *)
Definition moves_origin (d : directive) (n : nat) : Prop :=
  d = D_org \/ (d = D_section /\ n = 3%nat).
Definition reserves (d : directive) (n : nat) : Prop := d = D_ram.

(** Program counter and output advance together. *)
Definition in_step (s s' : st) : Prop :=
  pc s' - pc s = zlen (assembled s') - zlen (assembled s).

Fixpoint total (l : list Z) : Z := match l with [] => 0 | x :: t => x + total t end.

(** ** Operands of directives *)

(** The token denotes the number v of the given width. *)
Definition number (c : cfg) (s : st) (t : str) (bits v : Z) : Prop :=
  parse_integer (c_p c) (labels s) t bits false = Ok (Some v).
Definition unquoted (t : str) : Prop :=
  exists c r, t = c :: r /\ c <> dquote /\ c <> squote.

(** The state after emitting bytes. *)
Definition emitted (s : st) (b : bytes) (s' : st) : Prop :=
  s' = set_counter (set_assembled s (assembled s ++ b)) (org_counter s + zlen b).

(** Width of the data directives. *)
Inductive data_width : directive -> nat -> Prop :=
| dw_db : data_width D_db 1 | dw_dw : data_width D_dw 2 | dw_dd : data_width D_dd 4.

(** The operand recorded for address a when operands of w bytes, Some number or
    None for a name, are laid out from base. *)
Fixpoint slot (w base : Z) (ops : list str) (xs : list (option Z)) (a : Z) : option str :=
  match ops, xs with
  | t :: ops', x :: xs' =>
      match x with
      | None => if a =? base then Some t else slot w (base + w) ops' xs' a
      | Some _ => slot w (base + w) ops' xs' a
      end
  | _, _ => None
  end.

(** ** Blocks of statements *)

(** Statements assembled one after the other, as assemble() does. *)
Definition exec (c : cfg) (fuel : nat) (ss : list stmt) : M unit :=
  iter (statement_assemble c fuel
          (match fuel with O => fun _ => praise RecursionError | S f => assemble c f end)) ss.

Definition block_free (c : cfg) (bad : directive -> nat -> Prop) (ss : list stmt) : Prop :=
  (forall l t0 ops d, In (Stmt KDirective (t0 :: ops) l) ss -> names c t0 d -> ~ bad d (length ops)) /\
  (forall n t, file_text (c_env c) n = Some t -> text_free c bad t).

(** Same region, program counter in step with the output. *)
Definition in_region (s s' : st) : Prop :=
  in_step s s' /\ current_org s' = current_org s /\ current_org_end s' = current_org_end s.
Definition same_repeat (s s' : st) : Prop :=
  repeat_ s' = repeat_ s /\ extends (assembled s) (assembled s').
Definition bracket (d : directive) (n : nat) : Prop := d = D_repeat \/ d = D_endrepeat.

(** n copies of a list. *)
Fixpoint copies {A} (n : nat) (l : list A) : list A :=
  match n with O => [] | S m => l ++ copies m l end.

(** The fill byte of a padding directive: the configured one, or an explicit operand. *)
Inductive fill_operand (c : cfg) (s : st) : list str -> Z -> Prop :=
| fo_default : 0 <= fill_value (c_p c) < 256 -> fill_operand c s [] (fill_value (c_p c))
| fo_given t v : number c s t 8 v -> fill_operand c s [t] v.
