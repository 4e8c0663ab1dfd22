(** Vocabulary for included data, strings and decimal text. *)
From Verif Require Import Py Utils Tokenizer SpecTok State Assembler SpecUtils SpecExec SpecLink.
Local Open Scope Z_scope.

(** ** Tables and JSON documents *)

(** Width in bytes of the values of a table. *)
Inductive table_width : directive -> nat -> Prop :=
| tw_byte : table_width D_inccsv 1
| tw_word : table_width D_inccsv_le16 2.

(** Keys joined by dots. *)
Inductive dotted : list str -> str -> Prop :=
| dt_last k : ~ In "."%char k -> dotted [k] k
| dt_more k ks t : ~ In "."%char k -> dotted ks t -> dotted (k :: ks) (k ++ "."%char :: t).

(** The value reached from a document through keys. *)
Inductive reached_by : json -> list str -> json -> Prop :=
| rb_here j : reached_by j [] j
| rb_key d k ks j j' : dget str_eqb d k = Some j -> reached_by j ks j' -> reached_by (JDict d) (k :: ks) j'.

(** The number an element of a list stands for. *)
Inductive element (c : cfg) (s : st) : json -> Z -> Prop :=
| el_int n : element c s (JInt n) n
| el_true : element c s (JBool true) 1
| el_false : element c s (JBool false) 0
| el_text t v : number c s t 8 v -> element c s (JStr t) v.

(** The directives that read files other than sources, with the operands they take
    and whether the file can be opened. *)
Inductive no_file (c : cfg) (name : str) : directive -> nat -> Prop :=
| nf_bin : file_bytes (c_env c) name = None -> no_file c name D_incbin 1
| nf_csv d w : table_width d w -> file_csv (c_env c) name = None -> no_file c name d 1
| nf_json : file_json (c_env c) name = None -> no_file c name D_incjson 2.

(** ** Text *)

(** A quoted operand. *)
Inductive quoted : str -> str -> Prop :=
| qd_quoted q t : q = dquote \/ q = squote -> quoted (q :: t ++ [q]) t.

Definition seven_bit (t : str) : Prop := Forall (fun ch => ord ch < 128) t.

(** The bytes of an operand of .db: the characters of a string, or one number. *)
Inductive db_bytes (c : cfg) (s : st) : str -> bytes -> Prop :=
| db_text t x : quoted t x -> seven_bit x -> db_bytes c s t (map ord x)
| db_number t v : unquoted t -> number c s t 8 v -> db_bytes c s t [v].

(** Directives writing decimal text: digits of a label, and the final NUL. *)
Inductive text_width : directive -> nat -> nat -> bytes -> Prop :=
| xw_db : text_width D_db_to_ascii 1 3 []
| xw_dbz : text_width D_db_to_asciiz 1 3 [0]
| xw_dw : text_width D_dw_to_ascii 2 5 []
| xw_dwz : text_width D_dw_to_asciiz 2 5 [0].

(** A number in decimal, without superfluous zeros. *)
Definition decimal_text (v : Z) (b : bytes) : Prop :=
  Forall ascii_digit b /\ decimal b = v /\ b <> [] /\ (hd 0 b = 48 -> b = [48]).
