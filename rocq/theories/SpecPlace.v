(** Where references lie in the output. *)
From Verif Require Import Py Utils Tokenizer State Assembler SpecUtils SpecExec SpecLink SpecCpu.
Local Open Scope Z_scope.

(** The number of bytes a reference fills in when its value is in range. *)
Inductive takes (d : labeldata) : Z -> Prop :=
| t_field : ld_hook d = None -> takes d (ld_size d)
| t_text w : ld_hook d = Some (to_str_hook w) -> takes d (Z.of_nat w).

(** The bytes lo .. hi-1 of a reference. *)
Definition occupies (r : Z * labeldata) (iv : Z * Z) : Prop :=
  fst iv = fst r /\ takes (snd r) (snd iv - fst iv).
Definition apart (a b : Z * Z) : Prop := snd a <= fst b \/ snd b <= fst a.

(** Every reference has its own bytes of the output. *)
Definition tidy (s : st) : Prop :=
  exists ivs, Forall2 occupies (labels_addresses s) ivs /\
    Forall (fun iv => 0 <= fst iv < snd iv /\ snd iv <= zlen (assembled s)) ivs /\
    ForallOrdPairs apart ivs.

(** A state as a fresh assembler has it: references are apart and well formed, the
    output consists of bytes. *)
Definition sane (s : st) : Prop :=
  tidy s /\ Forall ref_ok (labels_addresses s) /\ Forall is_byte (assembled s).

(** References are only added, and only for bytes not yet written. *)
Definition later_refs (s s' : st) : Prop :=
  exists l, labels_addresses s' = labels_addresses s ++ l /\
    Forall (fun r => zlen (assembled s) <= fst r) l.

(** Files hold bytes. *)
Definition byte_files (c : cfg) : Prop :=
  forall n b, file_bytes (c_env c) n = Some b -> Forall is_byte b.

(** Some references are fields, i.e. not decimal text. *)
Definition no_text (s : st) : Prop := Forall (fun r => ld_hook (snd r) = None) (labels_addresses s).

(** Decimal texts have no more digits than there is room for. *)
Definition short_texts (c : cfg) (s : st) : Prop :=
  forall a d w abs v, In (a, d) (labels_addresses s) -> ld_hook d = Some (to_str_hook w) ->
    target (c_p c) (labels s) d abs v -> 0 <= v < 10 ^ Z.of_nat w.

(** While text is assembled from s0, leading to s2, the statement x is reached in state
    s and leads to state s1. *)
Definition passes_through (c : cfg) (fuel : nat) (text : str) (s0 : st) (s : st) (x : stmt) (s1 s2 : st) : Prop :=
  exists ss1 ss2, tokenize text = Ok (ss1 ++ x :: ss2) /\
    exec c fuel ss1 s0 = (s, Ok tt) /\ exec c fuel [x] s = (s1, Ok tt) /\
    assemble c fuel text s0 = (s2, Ok tt).
