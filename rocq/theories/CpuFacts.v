(** Lemmas shared by the processor models. *)
From Coq Require Import Lia.
From Verif Require Import Py PyFacts Utils Tokenizer State Assembler SpecUtils SpecSubst SubstFacts
  SpecExec SpecMacro MacroFacts SpecCpu Instr.
Local Open Scope Z_scope.

(** ** Tables *)

Fixpoint nodupb (l : list str) : bool :=
  match l with [] => true | a :: t => negb (str_in a t) && nodupb t end.

Lemma dget_app : forall V (a b : list (str * V)) k,
  dget str_eqb (a ++ b) k = match dget str_eqb a k with Some v => Some v | None => dget str_eqb b k end.
Proof.
  induction a as [|[x v] a IH]; intros b k; [reflexivity|]. cbn [app dget].
  destruct (str_eqb k x); auto.
Qed.

Lemma dget_map : forall V W (f : V -> W) (l : list (str * V)) k,
  dget str_eqb (map (fun '(n, v) => (n, f v)) l) k = option_map f (dget str_eqb l k).
Proof.
  induction l as [|[x v] l IH]; intros k; [reflexivity|]. cbn [map dget].
  destruct (str_eqb k x); auto.
Qed.

Lemma dset_fresh : forall V (d : list (str * V)) k v, ~ In k (map fst d) ->
  dset str_eqb d k v = d ++ [(k, v)].
Proof.
  induction d as [|[a x] d IH]; intros k v H; [reflexivity|]. cbn [dset map fst In] in *.
  destruct (str_eqb k a) eqn:E; [apply str_eqb_eq in E; exfalso; apply H; auto|].
  cbn [app]. f_equal. apply IH. auto.
Qed.

Lemma register_all_from : forall V p (l t : list (str * V)), case_sensitive p = false ->
  map upper (map fst l) = map fst l -> nodupb (map fst l) = true ->
  (forall k, In k (map fst l) -> ~ In k (map fst t)) -> register_all p t l = t ++ l.
Proof.
  intros V p l. unfold register_all. induction l as [|[n a] l IH]; intros t CS U ND D; [rewrite app_nil_r; reflexivity|].
  cbn [fold_left]. cbn [map fst nodupb] in U, ND. injection U as U1 U2.
  apply andb_prop in ND. destruct ND as [N1 N2].
  unfold register at 2. rewrite CS. rewrite U1. rewrite dset_fresh by (apply D; left; reflexivity).
  rewrite IH; auto.
  - rewrite <- app_assoc. reflexivity.
  - intros k I J. rewrite map_app, in_app_iff in J. cbn [map fst In] in J. destruct J as [J|[<-|[]]].
    + apply (D k); [right; auto|auto].
    + apply negb_true_iff in N1. assert (X : str_in n (map fst l) = true) by (apply str_in_In; auto). congruence.
Qed.

Lemma register_all_id : forall V p (l : list (str * V)), case_sensitive p = false ->
  map upper (map fst l) = map fst l -> nodupb (map fst l) = true -> register_all p [] l = l.
Proof. intros. rewrite register_all_from; auto. Qed.

(** ** Statements *)

Lemma exec_opcode : forall c s words t0 ops fuel l, opcode_stmt c s words t0 ops ->
  exec c fuel [Stmt KInstruction words l] s = opcode_assemble c (op_key c t0) (t0 :: ops) s.
Proof.
  intros c s words t0 ops fuel l (R & W & N).
  assert (E : map (subst_token (defines s)) words = t0 :: ops) by (apply subst_map; exact W).
  unfold exec, iter. unfold bind at 1. unfold statement_assemble. cbn [s_kind s_tokens s_line].
  replace s with (set_macros s (macros s)) at 1 by (destruct s; reflexivity).
  rewrite (instruction_step c (defines s) _ _ _ _ _ _ _ _ E eq_refl R). cbn [stored].
  rewrite N. replace (set_macros s (macros s)) with s by (destruct s; reflexivity).
  destruct (opcode_assemble c (op_key c t0) (t0 :: ops) s) as [s' [[]|e]]; reflexivity.
Qed.

Lemma opcode_fun : forall c s key f tokens, dget str_eqb (c_instructions c) key = Some (OFun f) ->
  opcode_assemble c key tokens s =
    match f tokens s with
    | (s', Ok (Some b)) => (set_counter (set_assembled s' (assembled s' ++ b)) (org_counter s' + zlen b), Ok tt)
    | (s', Ok None) => (s', Err (AExc InvalidInstruction))
    | (s', Err (AExc e)) => (s', Err (AExc e))
    | (s', Err (PExc _)) => (s', Err (AExc InvalidInstruction))
    end.
Proof.
  intros c s key f tokens H. unfold opcode_assemble. rewrite H. unfold bind, call_handler.
  destruct (f tokens s) as [s' [[b|]|[e|e]]]; reflexivity.
Qed.

(** An opcode instruction succeeds exactly with the bytes its handler returns. *)
Lemma fun_result : forall c s key f tokens s', dget str_eqb (c_instructions c) key = Some (OFun f) ->
  opcode_assemble c key tokens s = (s', Ok tt) <->
  exists b, snd (f tokens s) = Ok (Some b) /\ emitted (fst (f tokens s)) b s'.
Proof.
  intros c s key f tokens s' H. rewrite (opcode_fun _ _ _ _ _ H).
  destruct (f tokens s) as [s1 [[b|]|[e|e]]]; cbn [fst snd]; split; intros X; try discriminate.
  - injection X as <-. exists b. split; reflexivity.
  - destruct X as (b' & E & ->). injection E as <-. reflexivity.
  - destruct X as (b' & E & _). discriminate.
  - destruct X as (b' & E & _). discriminate.
  - destruct X as (b' & E & _). discriminate.
Qed.

Lemma static_result : forall c s key b t0 ops s', dget str_eqb (c_instructions c) key = Some (OStatic b) ->
  opcode_assemble c key (t0 :: ops) s = (s', Ok tt) <-> ops = [] /\ emitted s b s'.
Proof.
  intros c s key b t0 ops s' H. unfold opcode_assemble. rewrite H.
  destruct ops as [|x ops]; unfold len_in; cbn [length existsb Nat.eqb orb negb].
  - split; intros X; [injection X as <-; split; reflexivity|destruct X as [_ ->]; reflexivity].
  - split; [discriminate|]. intros [X _]. discriminate.
Qed.

Lemma unknown_result : forall c s key tokens s', dget str_eqb (c_instructions c) key = None ->
  opcode_assemble c key tokens s = (s', Ok tt) <-> False.
Proof. intros. unfold opcode_assemble. rewrite H. split; [discriminate|tauto]. Qed.

(** ** References *)

Lemma referring_app : forall ds es s, referring s (ds ++ es) = referring (referring s ds) es.
Proof. induction ds; intros; cbn [app referring]; auto. Qed.

Lemma referring_only : forall ds s, exists la, referring s ds = set_labels_addresses s la.
Proof.
  induction ds as [|d ds IH]; intros s; cbn [referring].
  - exists (labels_addresses s). destruct s; reflexivity.
  - destruct (IH (set_labels_addresses s (dset Z.eqb (labels_addresses s) (zlen (assembled s) + ld_offset d) d))) as [la E].
    exists la. rewrite E. reflexivity.
Qed.

(** parse_integer_or_label: the number, or a reference and 0. *)
Lemma poil_eq : forall p d sg s, parse_integer_or_label p d sg s =
  match parse_integer p (labels s) (ld_label d) (ld_bits_size d) (sg || negb (ld_relative d =? 0)) with
  | Ok (Some v) => (s, Ok v)
  | Ok None => (referring s [d], Ok 0)
  | Err e => (s, Err e)
  end.
Proof.
  intros. unfold parse_integer_or_label, m_parse_integer, bind.
  destruct (parse_integer p (labels s) (ld_label d) (ld_bits_size d) (sg || negb (ld_relative d =? 0)))
    as [[v|]|e]; reflexivity.
Qed.

(** ** Characters *)

Lemma upper_chr_nonletter : forall c d, upper_chr c = d ->
  (N_of_ascii d < 65 \/ 90 < N_of_ascii d)%N -> c = d.
Proof.
  intros c d E H. unfold upper_chr in E.
  destruct ((97 <=? N_of_ascii c)%N && (N_of_ascii c <=? 122)%N) eqn:B; [|exact E]. exfalso.
  apply andb_prop in B. destruct B as [B1 B2]. apply N.leb_le in B1, B2. subst d.
  rewrite N_ascii_embedding in H by lia. lia.
Qed.
Lemma upper_nonletter1 : forall t d, upper t = [d] -> (N_of_ascii d < 65 \/ 90 < N_of_ascii d)%N -> t = [d].
Proof.
  intros [|c [|c' t]] d E H; try discriminate. cbn [upper map] in E. injection E as E.
  apply upper_chr_nonletter in E; auto. subst. reflexivity.
Qed.

(** A string pattern of one character matches that character only. *)
Lemma imatch1_chr : forall c t, imatch1 (PStr [c]) t = str_eqb (upper t) (upper [c]).
Proof. intros. cbn [imatch1 existsb]. rewrite orb_false_r, orb_diag. reflexivity. Qed.

Lemma nonempty_eqb : forall t : str, negb (str_eqb t []) = match t with [] => false | _ => true end.
Proof. intros [|c t]; reflexivity. Qed.

Lemma plain_stmt : forall c s t0 ops, defines s = [] -> macros s = [] -> macro_recording s = None ->
  opcode_stmt c s (t0 :: ops) t0 ops.
Proof.
  intros c s t0 ops D M R. split; [exact R|]. split; [|rewrite M; reflexivity].
  unfold reads. rewrite D. induction (t0 :: ops) as [|t l IH]; constructor; auto.
  pose proof (subst_token_substituted [] t) as X. rewrite (subst_token_untouched [] t (untouched_nil t)) in X. exact X.
Qed.
