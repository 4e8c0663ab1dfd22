(** The operand functions of the 8086 model on written operands. *)
From Coq Require Import Lia.
From Verif Require Import Py PyFacts Utils Tokenizer State Assembler Instr I8086.
From Verif Require Import SpecUtils SpecExec SpecCpu UtilsFacts CpuFacts WordFacts MosFacts MipsFacts LrFacts M68Facts SpecI86 I86Sem.
Local Open Scope Z_scope.

Definition stag (t : str) : Z := if str_eqb t #"3" then 3 else if str_eqb t #"1" then 1 else 0.

(** ** Reading a value *)
Definition read (f : fld) (t : str) : M bytes :=
  match f with
  | Imm8 => let! v := parse_integer_or_label i86_p (lab t 1 8 1 0) false in lift (pack_byte [Some v])
  | Imm16 | AddrV => let! v := parse_integer_or_label i86_p (lab t 2 16 1 0) false in lift (pack_le16u [Some v])
  | Addr8 => let! v := parse_integer_or_label i86_p (lab t 1 8 1 0) false in lift (pack_le16u [Some v])
  | Disp16 => let! v := parse_integer_or_label i86_p (lab t 2 16 1 0) true in lift (pack_le16s [Some v])
  | Jump8 => let! s := get in let! v := parse_integer_or_label i86_p (lab t 1 8 1 (pc s + 2)) false in lift (pack_8s [Some v])
  | Jump16 => let! s := get in let! v := parse_integer_or_label i86_p (lab t 2 16 1 (pc s + 3)) false in lift (pack_le16u [Some v])
  end.
Definition ropt (v : option (fld * str)) : M bytes := match v with Some (f, t) => read f t | None => ret [] end.
Lemma bind_assoc : forall A B C (m : M A) (f : A -> M B) (g : B -> M C) s,
  bind (bind m f) g s = bind m (fun a => bind (f a) g) s.
Proof. intros. unfold bind. destruct (m s) as [s1 [a|e]]; reflexivity. Qed.
Lemma bind_ext : forall A B (m : M A) (f g : A -> M B) s, (forall a s, f a s = g a s) -> bind m f s = bind m g s.
Proof. intros A B m f g s H. unfold bind. destruct (m s) as [s1 [a|e]]; [apply H|reflexivity]. Qed.
Lemma bind_ret_r : forall A (m : M A) s, bind m (fun a => ret a) s = m s.
Proof. intros. unfold bind. destruct (m s) as [s1 [a|e]]; reflexivity. Qed.

(** ** Lists *)
Lemma tok_nth : forall pre (t : str) post, nth_error (pre ++ t :: post) (length pre) = Some t.
Proof. intros. rewrite nth_error_app2, Nat.sub_diag by lia. reflexivity. Qed.
Lemma tok_some : forall pre (t : str) post B (k : str -> M B), bind (tok_at (pre ++ t :: post) (length pre)) k = k t.
Proof. intros. unfold tok_at. rewrite tok_nth. reflexivity. Qed.
Lemma skipn_len : forall A (pre l : list A), skipn (length pre) (pre ++ l) = l.
Proof. intros. rewrite skipn_app, skipn_all, Nat.sub_diag. reflexivity. Qed.
Lemma skipn_len1 : forall A (pre : list A) x l, skipn (length pre + 1) (pre ++ x :: l) = l.
Proof.
  intros A pre x l. replace (pre ++ x :: l) with ((pre ++ [x]) ++ l) by (rewrite <- app_assoc; reflexivity).
  replace (length pre + 1)%nat with (length (pre ++ [x])) by (rewrite app_length; reflexivity). apply skipn_len.
Qed.
Lemma firstn_len : forall A k (l r : list A), k = length l -> firstn k (l ++ r) = l.
Proof. intros A k l r ->. rewrite firstn_app, firstn_all, Nat.sub_diag. cbn [firstn]. apply app_nil_r. Qed.
Lemma index_of_app : forall t l r, ~ In t l -> index_of t (l ++ t :: r) = Some (length l).
Proof.
  intros t l r N. induction l as [|x l IH]; cbn [app index_of length].
  - rewrite str_eqb_refl. reflexivity.
  - destruct (str_eqb t x) eqn:E; [apply str_eqb_eq in E; subst; exfalso; apply N; left; reflexivity|].
    rewrite IH by (intros X; apply N; right; exact X). reflexivity.
Qed.
Lemma index_of_nth : forall l n t, NoDup l -> nth_of l n t -> index_of t l = Some (Z.to_nat n).
Proof.
  intros l n t ND [N0 H]. revert H. generalize (Z.to_nat n). intros k. revert k. induction l as [|x l IH]; intros [|k] H; try discriminate; cbn [nth_error index_of] in *.
  - injection H as ->. rewrite str_eqb_refl. reflexivity.
  - inversion ND; subst. destruct (str_eqb t x) eqn:E.
    + apply str_eqb_eq in E. subst. apply nth_error_In in H. contradiction.
    + rewrite (IH ltac:(assumption) k H). reflexivity.
Qed.
Lemma index_of_none : forall l t, ~ In t l -> index_of t l = None.
Proof.
  intros l t N. induction l as [|x l IH]; [reflexivity|]. cbn [index_of]. destruct (str_eqb t x) eqn:E.
  - apply str_eqb_eq in E. subst. exfalso. apply N. left. reflexivity.
  - rewrite IH by (intros X; apply N; right; exact X). reflexivity.
Qed.
Lemma str_in_false : forall t l, ~ In t l -> str_in t l = false.
Proof. intros t l N. destruct (str_in t l) eqn:E; [|reflexivity]. apply str_in_In in E. contradiction. Qed.
Lemma str_neq : forall a b : str, a <> b -> str_eqb a b = false.
Proof. intros a b N. destruct (str_eqb a b) eqn:E; [|reflexivity]. apply str_eqb_eq in E. contradiction. Qed.
Lemma nth_of_In : forall X (l : list X) n x, nth_of l n x -> In x l.
Proof. intros X l n x [_ H]. eapply nth_error_In; eauto. Qed.
Lemma nth_of_lt : forall X (l : list X) n x, nth_of l n x -> 0 <= n < zlen l.
Proof.
  intros X l n x [N0 H]. split; [exact N0|]. assert (L : (Z.to_nat n < length l)%nat) by (apply nth_error_Some; congruence).
  unfold zlen. lia.
Qed.
Lemma nodup_names : NoDup all_regs.
Proof.
  assert (E : forall l, (fix nd (l : list str) := match l with [] => true | x :: l => negb (str_in x l) && nd l end) l = true -> NoDup l).
  { induction l as [|x l IH]; intros H; constructor; apply andb_prop in H; destruct H as [H1 H2]; [|auto].
    intros I. apply str_in_In in I. rewrite I in H1. discriminate. }
  apply E. reflexivity.
Qed.
Lemma names_eq : all_regs = bytes_regs ++ words_regs ++ segs_regs. Proof. reflexivity. Qed.
Lemma nodup_part : forall A (a b : list A), NoDup (a ++ b) -> NoDup a /\ NoDup b /\ (forall x, In x a -> ~ In x b).
Proof.
  intros A a b. induction a as [|x a IH]; intros H; cbn [app] in H.
  - split; [constructor|]. split; [exact H|]. intros x [].
  - inversion H as [|? ? N H']; subst. destruct (IH H') as (P & Q & R). split; [constructor; [intros X; apply N, in_or_app; auto|exact P]|].
    split; [exact Q|]. intros y [<- |I]; [intros X; apply N, in_or_app; auto|apply R; exact I].
Qed.
Lemma nd8 : NoDup regs8. Proof. apply (nodup_part _ regs8 (regs16 ++ segments) nodup_names). Qed.
Lemma nd16 : NoDup regs16.
Proof. destruct (nodup_part _ regs8 (regs16 ++ segments) nodup_names) as (_ & H & _). apply (nodup_part _ _ _ H). Qed.
Lemma nds : NoDup segments.
Proof. destruct (nodup_part _ regs8 (regs16 ++ segments) nodup_names) as (_ & H & _). apply (nodup_part _ _ _ H). Qed.
Lemma apart8 : forall t, In t regs8 -> ~ In t regs16 /\ ~ In t segments.
Proof.
  intros t I. destruct (nodup_part _ regs8 (regs16 ++ segments) nodup_names) as (_ & _ & H). specialize (H t I).
  split; intros X; apply H, in_or_app; auto.
Qed.
Lemma apart16 : forall t, In t regs16 -> ~ In t regs8 /\ ~ In t segments.
Proof.
  intros t I. destruct (nodup_part _ regs8 (regs16 ++ segments) nodup_names) as (_ & P & H). split.
  - intros X. apply (H t X), in_or_app. auto.
  - apply (nodup_part _ _ _ P). exact I.
Qed.
Lemma aparts : forall t, In t segments -> ~ In t regs8 /\ ~ In t regs16.
Proof.
  intros t I. split; intros X; [destruct (apart8 t X)|destruct (apart16 t X)]; contradiction.
Qed.
Lemma upper_bracket : forall t, upper t = #"[" -> t = #"[". Proof. intros t H. apply upper_nonletter1 in H; [exact H|right; reflexivity]. Qed.
Lemma upper_close : forall t, upper t = #"]" -> t = #"]". Proof. intros t H. apply upper_nonletter1 in H; [exact H|right; reflexivity]. Qed.

(** ** Places in memory *)
Lemma combos_cases : forall m ws, nth_of combos m (map upper ws) ->
  (exists a p b, ws = [a; p; b] /\ upper p = #"+" /\
     ((m = 0 /\ upper a = #"BX" /\ upper b = #"SI") \/ (m = 1 /\ upper a = #"BX" /\ upper b = #"DI") \/
      (m = 2 /\ upper a = #"BP" /\ upper b = #"SI") \/ (m = 3 /\ upper a = #"BP" /\ upper b = #"DI"))) \/
  (exists a, ws = [a] /\ ((m = 4 /\ upper a = #"SI") \/ (m = 5 /\ upper a = #"DI") \/ (m = 6 /\ upper a = #"BP") \/ (m = 7 /\ upper a = #"BX"))).
Proof.
  intros m ws H. pose proof (nth_of_lt _ _ _ _ H) as L. change (zlen combos) with 8 in L. destruct H as [_ H].
  assert (M : m = 0 \/ m = 1 \/ m = 2 \/ m = 3 \/ m = 4 \/ m = 5 \/ m = 6 \/ m = 7) by lia.
  destruct M as [-> |[-> |[-> |[-> |[-> |[-> |[-> | ->]]]]]]]; cbn [nth_error combos Z.to_nat Pos.to_nat Pos.iter_op Nat.add] in H;
  injection H as H; destruct ws as [|a [|p [|b [|? ?]]]]; try discriminate; cbn [map] in H;
  try (left; exists a, p, b; injection H as H1 H2 H3; auto 9; fail); right; exists a; injection H as H1; auto 9.
Qed.
Ltac words := repeat match goal with E : upper ?t = _ |- context [upper ?t] => rewrite E end.
Lemma modrm_plain : forall m ws, nth_of combos m (map upper ws) -> get_modrm_mod ws = Some (0, m, length ws, None).
Proof.
  intros m ws H. destruct (combos_cases m ws H) as [(a & p & b & -> & P & C)|(a & -> & C)]; clear H;
  [destruct C as [(-> & X & Y)|[(-> & X & Y)|[(-> & X & Y)|(-> & X & Y)]]]|destruct C as [(-> & X)|[(-> & X)|[(-> & X)|(-> & X)]]]];
  unfold get_modrm_mod; cbn [find bases map match_ length Nat.eqb match_all match1 andb app]; words; reflexivity.
Qed.
Lemma reg_word_neq : forall d w, value_word d -> str_in w all_regs = true -> str_eqb (upper d) (upper w) = false.
Proof.
  intros d w (N & _ & _) H. apply str_neq. intros E. apply N. rewrite E. rewrite <- names_eq. 
  apply str_in_In in H. unfold all_regs, regs8, regs16, segments in H. cbn [app In] in H.
  repeat (destruct H as [<- |H]; [vm_compute; tauto|]). contradiction.
Qed.
Lemma modrm_disp : forall m ws sg d, nth_of combos m (map upper ws) -> sg = #"+" \/ sg = #"-" -> value_word d ->
  get_modrm_mod (ws ++ [sg; d]) = Some (2, m, (length ws + 2)%nat, Some (sg ++ d)).
Proof.
  intros m ws sg d H SG VW.
  pose proof (reg_word_neq d #"SI" VW eq_refl) as NS. pose proof (reg_word_neq d #"DI" VW eq_refl) as ND.
  destruct (combos_cases m ws H) as [(a & p & b & -> & P & C)|(a & -> & C)]; clear H;
  [destruct C as [(-> & X & Y)|[(-> & X & Y)|[(-> & X & Y)|(-> & X & Y)]]]|destruct C as [(-> & X)|[(-> & X)|[(-> & X)|(-> & X)]]]];
  destruct SG as [-> | ->];
  unfold get_modrm_mod; cbn [find bases map match_ length Nat.eqb match_all match1 andb app nth Nat.add]; words; rewrite ?NS, ?ND; reflexivity.
Qed.
Lemma modrm_none : forall t, value_word t -> get_modrm_mod [t] = None.
Proof.
  intros t VW. pose proof (reg_word_neq t #"SI" VW eq_refl) as N1. pose proof (reg_word_neq t #"DI" VW eq_refl) as N2.
  pose proof (reg_word_neq t #"BP" VW eq_refl) as N3. pose proof (reg_word_neq t #"BX" VW eq_refl) as N4.
  unfold get_modrm_mod. cbn [find bases map match_ length Nat.eqb match_all match1 andb app]. rewrite N1, N2, N3, N4. reflexivity.
Qed.

(** ** The mod-reg-r/m byte *)
Definition small (o : option Z) (n : Z) : Prop := match o with Some z => 0 <= z < n | None => True end.
Record same_modrm (m : smod str) (mm : modrm) : Prop := {
  sr_mod : mo_mod mm = sm_mod m; sr_reg : mo_reg mm = sm_reg m; sr_rm : mo_rm mm = sm_rm m;
  sr_disp : option_map lstrip_plus (mo_disp mm) = sm_disp m;
  sr_mod4 : small (sm_mod m) 4; sr_reg8 : small (sm_reg m) 8; sr_rm8 : small (sm_rm m) 8 }.
Lemma modrm_byte : forall a b c, 0 <= a < 4 -> 0 <= b < 8 -> 0 <= c < 8 ->
  pack_bits 0 [((7, 6), a); ((5, 3), b); ((2, 0), c)] = Ok (a * 64 + b * 8 + c).
Proof.
  intros a b c HA HB HC. rewrite (pack_sum _ 8 0); [|repeat split; lia| |exists 0; reflexivity].
  - f_equal. unfold field_sum. cbn [fold_right f_lo f_val fst snd]. change (2 ^ 6) with 64. change (2 ^ 3) with 8. change (2 ^ 0) with 1. lia.
  - repeat constructor; unfold fits_field; cbn [f_hi f_lo f_val fst snd]; cbn; lia.
Qed.

(** An operand function agrees with a step. *)
Definition agrees (n : nat) (st : step str) (r : M result) : Prop :=
  match st with
  | Skip => forall s, r s = (s, Ok None)
  | Fail => forall s s' x, r s <> (s', Ok x)
  | Wild => True
  | Next pre v m => exists mm, same_modrm m mm /\ forall s, r s = bind (ropt v) (fun b => ret (Some (n, pre ++ b, mm))) s
  end.
Lemma build_agrees : forall m mm n, same_modrm m mm ->
  agrees n (sbuild m) (let! b := build_modrm mm in ret (Some (n, b, mm))).
Proof.
  intros m mm n R. assert (RR := R). destruct RR as [R1 R2 R3 R4 R5 R6 R7]. unfold sbuild, build_modrm. rewrite R1, R2, R3.
  destruct (sm_mod m) as [a|] eqn:E1; cbn [key]; [|intros s s' x; unfold bind, praise, raise; discriminate].
  destruct (sm_reg m) as [b|] eqn:E2; cbn [key]; [|intros s s' x; unfold bind, praise, raise, ret; discriminate].
  destruct (sm_rm m) as [c|] eqn:E3; cbn [key]; [|intros s s' x; unfold bind, praise, raise, ret; discriminate].
  cbn [small] in *. exists mm. split; [exact R|]. intros s. rewrite !ret_bind, modrm_byte by assumption. rewrite lift_bind.
  rewrite pack_byte1 by lia. rewrite lift_bind. rewrite <- R4. destruct (mo_disp mm) as [d|] eqn:D; cbn [option_map disp_of ropt].
  - cbn [read]. fold (lab (lstrip_plus d) 2 16 1 0). rewrite !bind_assoc. apply bind_ext. intros v s1. rewrite !bind_assoc. apply bind_ext. intros b' s2. reflexivity.
  - rewrite !ret_bind. rewrite app_nil_r. reflexivity.
Qed.
Lemma build_if_agrees : forall m mm n, same_modrm m mm ->
  agrees n (sbuild_if m) (let! b := build_if_reg mm in ret (Some (n, b, mm))).
Proof.
  intros m mm n R. unfold sbuild_if, build_if_reg. rewrite (sr_reg _ _ R). destruct (sm_reg m); [apply build_agrees; exact R|].
  exists mm. split; [exact R|]. intros s. reflexivity.
Qed.

(** ** Tokens of an operand *)
Lemma in_regs8 : forall n t, nth_of bytes_regs n (upper t) -> In (upper t) regs8 /\ 0 <= n < 8.
Proof. intros n t H. split; [exact (nth_of_In _ _ _ _ H)|exact (nth_of_lt _ _ _ _ H)]. Qed.
Lemma in_regs16 : forall n t, nth_of words_regs n (upper t) -> In (upper t) regs16 /\ 0 <= n < 8.
Proof. intros n t H. split; [exact (nth_of_In _ _ _ _ H)|exact (nth_of_lt _ _ _ _ H)]. Qed.
Lemma in_segs : forall n t, nth_of segs_regs n (upper t) -> In (upper t) segments /\ 0 <= n < 4.
Proof. intros n t H. split; [exact (nth_of_In _ _ _ _ H)|exact (nth_of_lt _ _ _ _ H)]. Qed.
Lemma reg_known : forall t, In t regs8 \/ In t regs16 \/ In t segments -> In t all_regs.
Proof. intros t H. unfold all_regs. rewrite !in_app_iff. tauto. Qed.
(** The first word of an operand. *)
Inductive first_word : opd str -> str -> Prop :=
| fw_r8 n t : nth_of bytes_regs n (upper t) -> first_word (R8 n) t
| fw_r16 n t : nth_of words_regs n (upper t) -> first_word (R16 n) t
| fw_sr n t : nth_of segs_regs n (upper t) -> first_word (SR n) t
| fw_mem r d : first_word (Mem r d) #"["
| fw_dir a : first_word (Dir a) #"["
| fw_val t : value_word t -> ~ In ":"%char t -> first_word (Val t) t.
Lemma written_first : forall o ws, written1 o ws -> exists t r, ws = t :: r /\ first_word o t.
Proof.
  intros o ws H. destruct H; try (eexists; eexists; split; [reflexivity|]; constructor; assumption);
    cbn [app]; eexists; eexists; (split; [reflexivity|]); constructor.
Qed.
Lemma bracket_unknown : ~ In #"[" all_regs. Proof. intros H. apply str_in_In in H. discriminate. Qed.
(** The register class of a first word. *)
Lemma fw_index : forall o t, first_word o t ->
  index_of (upper t) regs8 = match o with R8 n => Some (Z.to_nat n) | _ => None end /\
  index_of (upper t) regs16 = match o with R16 n => Some (Z.to_nat n) | _ => None end /\
  index_of (upper t) segments = match o with SR n => Some (Z.to_nat n) | _ => None end /\
  str_in (upper t) all_regs = match o with R8 _ | R16 _ | SR _ => true | _ => false end /\
  str_eqb (upper t) #"[" = match o with Mem _ _ | Dir _ => true | _ => false end.
Proof.
  intros o t H. assert (UB : forall l : list str, In (upper t) l -> ~ In #"[" l -> str_eqb (upper t) #"[" = false).
  { intros l I N. apply str_neq. intros E. rewrite E in I. contradiction. }
  destruct H as [n t H|n t H|n t H|r d|a|t V C].
  - destruct (in_regs8 n t H) as [I _]. destruct (apart8 _ I) as [N1 N2]. repeat split.
    + apply index_of_nth; [exact nd8|exact H].
    + apply index_of_none; exact N1.
    + apply index_of_none; exact N2.
    + apply str_in_In, reg_known. auto.
    + apply (UB all_regs); [apply reg_known; auto|exact bracket_unknown].
  - destruct (in_regs16 n t H) as [I _]. destruct (apart16 _ I) as [N1 N2]. repeat split.
    + apply index_of_none; exact N1.
    + apply index_of_nth; [exact nd16|exact H].
    + apply index_of_none; exact N2.
    + apply str_in_In, reg_known. auto.
    + apply (UB all_regs); [apply reg_known; auto|exact bracket_unknown].
  - destruct (in_segs n t H) as [I _]. destruct (aparts _ I) as [N1 N2]. repeat split.
    + apply index_of_none; exact N1.
    + apply index_of_none; exact N2.
    + apply index_of_nth; [exact nds|exact H].
    + apply str_in_In, reg_known. auto.
    + apply (UB all_regs); [apply reg_known; auto|exact bracket_unknown].
  - repeat split.
  - repeat split.
  - destruct V as (V & B1 & B2). rewrite <- names_eq in V. repeat split; try apply index_of_none; try (intros X; apply V, reg_known; auto; fail).
    + apply str_in_false. exact V.
    + apply str_neq. intros E. apply B1, upper_bracket, E.
Qed.
Lemma fw_name : forall o t w, first_word o t -> In w all_regs ->
  str_eqb (upper t) w = match regname o with Some x => str_eqb x w | None => false end.
Proof.
  intros o t w H I. destruct H as [n t H|n t H|n t H|r d|a|t V C]; cbn [regname];
    try (destruct H as [_ H]; rewrite H; reflexivity);
    try (apply str_neq; intros E; rewrite <- E in I; exact (bracket_unknown I)).
  apply str_neq. intros E. destruct V as (V & _). apply V. rewrite E, <- names_eq. exact I.
Qed.

(** ** Memory operands *)
Lemma combo_no_close : forall m ws, nth_of combos m (map upper ws) -> ~ In #"]" ws.
Proof.
  intros m ws H I. destruct (combos_cases m ws H) as [(a & p & b & -> & P & C)|(a & -> & C)];
    cbn [In] in I; decompose [or and] C; decompose [or] I; subst; try discriminate; contradiction.
Qed.
Definition inner (o : opd str) (ws : list str) : Prop :=
  match o with
  | Mem r None => get_modrm_mod ws = Some (0, r, length ws, None) /\ 0 <= r < 8
  | Mem r (Some d) => exists x, get_modrm_mod ws = Some (2, r, length ws, Some x) /\ lstrip_plus x = d /\ 0 <= r < 8
  | Dir _ => get_modrm_mod ws = None
  | _ => False
  end.
Lemma plus_strip : forall d, hd_error d <> Some "+"%char -> lstrip_plus d = d.
Proof.
  intros [|c d] H; [reflexivity|]. cbn [lstrip_plus]. destruct (Ascii.eqb c "+") eqn:E; [|reflexivity].
  apply Ascii.eqb_eq in E. subst. exfalso. apply H. reflexivity.
Qed.
Lemma written_inner : forall o ws, written1 o ws -> in_memory o = true ->
  exists ws', ws = #"[" :: ws' ++ [#"]"] /\ ~ In #"]" ws' /\ inner o ws'.
Proof.
  intros o ws H IM. destruct H as [| | |m ws H|m ws d H VW NP|m ws d H VW|t VW|]; try discriminate.
  - exists ws. split; [reflexivity|]. split; [eapply combo_no_close; eauto|]. split; [apply modrm_plain; exact H|apply (nth_of_lt _ _ _ _ H)].
  - exists (ws ++ [#"+"; d]). split; [rewrite <- app_assoc; reflexivity|]. split.
    + rewrite in_app_iff. intros [I|[I|[I|[]]]]; [exact (combo_no_close _ _ H I)|discriminate|]. destruct VW as (_ & _ & N). congruence.
    + exists (#"+" ++ d). split; [rewrite (modrm_disp m ws #"+" d H (or_introl eq_refl) VW), app_length; reflexivity|].
      split; [exact (plus_strip d NP)|apply (nth_of_lt _ _ _ _ H)].
  - exists (ws ++ [#"-"; d]). split; [rewrite <- app_assoc; reflexivity|]. split.
    + rewrite in_app_iff. intros [I|[I|[I|[]]]]; [exact (combo_no_close _ _ H I)|discriminate|]. destruct VW as (_ & _ & N). congruence.
    + exists (#"-" ++ d). split; [rewrite (modrm_disp m ws #"-" d H (or_intror eq_refl) VW), app_length; reflexivity|].
      split; [reflexivity|apply (nth_of_lt _ _ _ _ H)].
  - exists [t]. split; [reflexivity|]. split; [intros [E|[]]; destruct VW as (_ & _ & N); congruence|]. apply modrm_none. exact VW.
Qed.
Lemma memory_inner : forall pre ws' post mm, ~ In #"]" ws' ->
  arg_memory (pre ++ (#"[" :: ws' ++ [#"]"]) ++ post) (length pre) mm =
  match get_modrm_mod ws' with
  | Some (md, rm, delta, d) =>
      let m := Modrm (Some md) (mo_reg mm) (Some rm) d in
      let! b := build_if_reg m in ret (Some ((2 + delta)%nat, b, m))
  | None => ret None
  end.
Proof.
  intros pre ws' post mm N. unfold arg_memory, index_from. cbn [app]. rewrite skipn_len1. rewrite <- app_assoc. cbn [app].
  rewrite index_of_app by exact N. cbn [option_map].
  rewrite firstn_len by (unfold str; lia). reflexivity.
Qed.
Lemma memory_agrees : forall r d ws pre post m mm, written1 (Mem r d) ws -> same_modrm m mm ->
  agrees (length ws) (smem r d m) (arg_memory (pre ++ ws ++ post) (length pre) mm).
Proof.
  intros r d ws pre post m mm W R. destruct (written_inner _ _ W eq_refl) as (ws' & -> & N & I).
  rewrite memory_inner by exact N. cbn [inner] in I. unfold smem.
  match goal with |- agrees ?n _ _ => replace n with (2 + length ws')%nat by (unfold str; cbn [length]; rewrite app_length; cbn [length]; lia) end.
  destruct R as [R1 R2 R3 R4 R5 R6 R7]. destruct d as [d|].
  - destruct I as (x & G & ST & RG). rewrite G. cbv zeta. apply build_if_agrees.
    split; cbn; auto; try lia. congruence.
  - destruct I as (G & RG). rewrite G. cbv zeta. apply build_if_agrees. split; cbn; auto; lia.
Qed.
Lemma memory_skips : forall a ws pre post mm s, written1 (Dir a) ws -> arg_memory (pre ++ ws ++ post) (length pre) mm s = (s, Ok None).
Proof.
  intros a ws pre post mm s W. destruct (written_inner _ _ W eq_refl) as (ws' & -> & N & I).
  rewrite memory_inner by exact N. cbn [inner] in I. rewrite I. reflexivity.
Qed.
Lemma direct_of : forall o ws pre post, written1 o ws ->
  direct (pre ++ ws ++ post) (length pre) = ret (match o with Dir a => Some a | _ => None end).
Proof.
  intros o ws pre post H. unfold direct. rewrite skipn_len.
  assert (NB : forall (x : str) (r : list str), upper x <> #"[" -> direct (x :: r) 0 = ret None).
  { intros x r NX. unfold direct. cbn [skipn]. destruct r as [|y [|z r]]; try reflexivity. cbn [firstn match_ length Nat.eqb match_all match1 andb].
    rewrite str_neq by (intros E; apply NX; exact E). reflexivity. }
  unfold direct in NB. cbn [skipn] in NB.
  assert (RB : forall t, In (upper t) all_regs -> upper t <> #"[") by (intros t I E; rewrite E in I; exact (bracket_unknown I)).
  destruct H as [n t H|n t H|n t H|m ws H|m ws d H VW NP|m ws d H VW|t VW|t VW C].
  - apply NB. apply RB, reg_known. left. apply (in_regs8 n t H).
  - apply NB. apply RB, reg_known. right. left. apply (in_regs16 n t H).
  - apply NB. apply RB, reg_known. right. right. apply (in_segs n t H).
  - destruct (combos_cases m ws H) as [(a & p & b & -> & P & CC)|(a & -> & CC)]; cbn [app firstn match_ length Nat.eqb match_all match1 andb].
    + rewrite P. rewrite andb_false_r. reflexivity.
    + replace (str_in (upper a) all_regs) with true; [reflexivity|]. decompose [or and] CC; words; reflexivity.
  - destruct (combos_cases m ws H) as [(a & p & b & -> & P & CC)|(a & -> & CC)]; cbn [app firstn match_ length Nat.eqb match_all match1 andb].
    + rewrite P. rewrite andb_false_r. reflexivity.
    + reflexivity.
  - destruct (combos_cases m ws H) as [(a & p & b & -> & P & CC)|(a & -> & CC)]; cbn [app firstn match_ length Nat.eqb match_all match1 andb].
    + rewrite P. rewrite andb_false_r. reflexivity.
    + reflexivity.
  - cbn [app firstn]. destruct VW as (VW & _). rewrite <- names_eq in VW. rewrite (str_in_false _ _ VW). reflexivity.
  - apply NB. destruct VW as (_ & B1 & _). intros E. apply B1, upper_bracket, E.
Qed.
