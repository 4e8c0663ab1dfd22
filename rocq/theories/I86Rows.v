(** The 8086 model evaluates its table as the symbolic evaluation does. *)
From Coq Require Import Lia.
From Verif Require Import Py PyFacts Utils Tokenizer State Assembler Instr I8086.
From Verif Require Import SpecUtils SpecExec SpecCpu UtilsFacts CpuFacts WordFacts MosFacts MipsFacts LrFacts M68Facts SpecI86 I86Sem I86Facts.
Local Open Scope Z_scope.

Definition known_arg (a : arg) : bool := match a with AReg w => str_in w all_regs | _ => true end.

Lemma reg_agrees : forall regs pre t post mm m o n, same_modrm m mm -> (1 <= length pre)%nat ->
  index_of (upper t) regs = match o with Some n => Some (Z.to_nat n) | None => None end -> small o 8 -> n = 1%nat ->
  agrees n (match o with Some k => sreg (Nat.eqb (length pre) 1) k m | None => Skip end) (arg_reg regs (pre ++ t :: post) (length pre) mm).
Proof.
  intros regs pre t post mm m o n R L I SM ->. unfold arg_reg. rewrite tok_some, I. destruct o as [k|]; [|intros s; reflexivity].
  cbn [small] in SM. unfold sreg. rewrite Z2Nat.id by lia.
  assert (R2 : same_modrm (Smod (sm_mod m) (Some k) (sm_rm m) (sm_disp m)) (Modrm (mo_mod mm) (Some k) (mo_rm mm) (mo_disp mm)))
    by (destruct R; split; cbn; auto).
  destruct (Nat.eqb (length pre) 1) eqn:E.
  - apply Nat.eqb_eq in E. replace (Nat.ltb 1 (length pre)) with false by (symmetry; apply Nat.ltb_ge; unfold str in *; lia).
    exists (Modrm (mo_mod mm) (Some k) (mo_rm mm) (mo_disp mm)). split; [exact R2|]. intros s. reflexivity.
  - apply Nat.eqb_neq in E. replace (Nat.ltb 1 (length pre)) with true by (symmetry; apply Nat.ltb_lt; unfold str in *; lia).
    apply build_agrees. exact R2.
Qed.
Lemma value_agrees : forall f t n m mm (r : M result), same_modrm m mm ->
  (forall s, r s = bind (read f t) (fun b => ret (Some (n, b, mm))) s) -> agrees n (Next [] (Some (f, t)) m) r.
Proof. intros f t n m mm r R H. exists mm. split; [exact R|]. intros s. rewrite H. reflexivity. Qed.
Lemma rm_register : forall regs pre t post mm m n, same_modrm m mm ->
  index_of (upper t) regs = Some (Z.to_nat n) -> 0 <= n < 8 ->
  agrees 1 (sbuild_if (Smod (Some 3) (sm_reg m) (Some n) (sm_disp m))) (arg_rm regs (pre ++ t :: post) (length pre) mm).
Proof.
  intros regs pre t post mm m n R I RG. unfold arg_rm. rewrite tok_some. cbv zeta. rewrite I. rewrite Z2Nat.id by lia.
  apply build_if_agrees. destruct R; split; cbn; auto; lia.
Qed.
Lemma has_colon_false : forall t, ~ In ":"%char t -> has_colon t = false.
Proof.
  intros t N. unfold has_colon. destruct (existsb _ t) eqn:E; [|reflexivity]. apply existsb_exists in E. destruct E as (c & I & E).
  apply Ascii.eqb_eq in E. subst. contradiction.
Qed.
Lemma reg_no_colon : forall t, In (upper t) all_regs -> has_colon t = false.
Proof.
  intros t I. apply has_colon_false. intros C. assert (In ":"%char (upper t)) as C2 by (apply (in_map upper_chr) in C; exact C).
  assert (X : forallb (fun r => negb (existsb (Ascii.eqb ":") r)) all_regs = true) by reflexivity.
  rewrite forallb_forall in X. apply X in I. apply negb_true_iff in I.
  assert (Y : existsb (Ascii.eqb ":") (upper t) = true) by (apply existsb_exists; exists ":"%char; split; [exact C2|reflexivity]).
  unfold str in *. congruence.
Qed.
Lemma one_word : forall o ws, written1 o ws -> match o with Mem _ _ | Dir _ => False | _ => True end -> length ws = 1%nat.
Proof. intros o ws W H. destruct W; try reflexivity; contradiction. Qed.
Lemma fw_small : forall o t, first_word o t ->
  small (match o with R8 n => Some n | _ => None end) 8 /\ small (match o with R16 n => Some n | _ => None end) 8 /\
  small (match o with SR n => Some n | _ => None end) 8.
Proof.
  intros o t [n t0 H|n t0 H|n t0 H|r d|a|t0 V C]; cbn [small]; repeat split; try exact I;
    try (destruct (in_regs8 _ _ H); lia); try (destruct (in_regs16 _ _ H); lia); destruct (in_segs _ _ H); lia.
Qed.

Lemma arg_agrees : forall a o ws pre post m mm, written1 o ws -> same_modrm m mm -> known_arg a = true -> (1 <= length pre)%nat ->
  agrees (length ws) (sstep stag a (Nat.eqb (length pre) 1) o m) (run_arg a (pre ++ ws ++ post) (length pre) mm).
Proof.
  intros a o ws pre post m mm W R K L.
  destruct (written_first o ws W) as (t & r & EW & FW).
  destruct (fw_index o t FW) as (I8 & I16 & IS & IA & IB). destruct (fw_small o t FW) as (S8 & S16 & SS).
  assert (TK : forall B (k : str -> M B), bind (tok_at (pre ++ ws ++ post) (length pre)) k = k t).
  { intros B k. subst ws. cbn [app]. apply tok_some. }
  assert (EQ : pre ++ ws ++ post = pre ++ t :: (r ++ post)) by (subst ws; reflexivity).
  assert (BR : match o with Mem _ _ | Dir _ => t = #"[" | _ => True end) by (destruct FW; auto).
  assert (L1 : match o with Mem _ _ | Dir _ => True | _ => length ws = 1%nat end) by (destruct o; auto; apply (one_word _ _ W I)).
  assert (NM : forall regs, index_of (upper t) regs = None ->
    arg_rm regs (pre ++ ws ++ post) (length pre) mm =
    if match o with Mem _ _ | Dir _ => true | _ => false end then arg_memory (pre ++ ws ++ post) (length pre) mm else ret None).
  { intros regs IR. unfold arg_rm. rewrite TK. cbv zeta. rewrite IR, IB. reflexivity. }
  assert (RM : forall regs b, (index_of (upper t) regs = match o, b with R8 n, true | R16 n, false => Some (Z.to_nat n) | _, _ => None end) ->
    agrees (length ws) match o, b with
      | R8 n, true | R16 n, false => sbuild_if (Smod (Some 3) (sm_reg m) (Some n) (sm_disp m))
      | Mem r d, _ => smem r d m | _, _ => Skip end (arg_rm regs (pre ++ ws ++ post) (length pre) mm)).
  { intros regs b IR. destruct o as [n|n|n|q d|q|q|n], b; try (rewrite NM by exact IR; intros s; reflexivity);
      try (rewrite NM by exact IR; apply memory_agrees; assumption);
      try (rewrite NM by exact IR; intros s; apply (memory_skips _ _ _ _ _ _ W));
      (rewrite L1, EQ; apply rm_register; [exact R|exact IR|cbn [small] in *; lia]). }
  assert (RG : forall regs (k : option Z), index_of (upper t) regs = match k with Some n => Some (Z.to_nat n) | None => None end -> small k 8 ->
    (k <> None -> length ws = 1%nat) ->
    agrees (length ws) (match k with Some n => sreg (Nat.eqb (length pre) 1) n m | None => Skip end) (arg_reg regs (pre ++ ws ++ post) (length pre) mm)).
  { intros regs k IR SM LK. rewrite EQ. destruct k as [n|].
    - apply (reg_agrees regs pre t _ mm m (Some n)); auto. apply LK. discriminate.
    - intros s. unfold arg_reg. rewrite tok_some, IR. reflexivity. }
  destruct a as [w| | | | | | | | | | | | | | | |]; cbn [run_arg].
  - (* AReg *) cbn [known_arg] in K. apply str_in_In in K. cbn [sstep]. pose proof (fw_name o t w FW K) as N.
    rewrite TK. cbv beta. rewrite N. destruct (regname o) as [x|] eqn:RN; [|intros s; reflexivity].
    destruct (str_eqb x w); [|intros s; reflexivity]. exists mm. split; [exact R|]. intros s.
    replace (length ws) with 1%nat; [reflexivity|]. destruct o; try discriminate; symmetry; exact L1.
  - (* AEb *) specialize (RM regs8 true). destruct o; apply RM; exact I8.
  - specialize (RM regs16 false). destruct o; apply RM; exact I16.
  - specialize (RG regs8 (match o with R8 n => Some n | _ => None end)). destruct o; apply RG; auto; intros X; congruence.
  - specialize (RG regs16 (match o with R16 n => Some n | _ => None end)). destruct o; apply RG; auto; intros X; congruence.
  - (* AIb *) rewrite TK. cbv beta. assert (X : str_in (upper t) (all_regs ++ [#"["; #"]"]) = match o with Val _ => false | _ => true end).
    { unfold str_in in *. rewrite existsb_app, IA. cbn [existsb]. rewrite IB. destruct FW as [| | | | |t V C]; try reflexivity.
      cbn [orb]. rewrite str_neq; [reflexivity|]. intros E. destruct V as (_ & _ & V). apply V, upper_close, E. }
    rewrite X. destruct FW; cbn [sstep]; try (intros s; reflexivity). apply (value_agrees _ _ _ _ mm); [exact R|]. intros s. rewrite L1. cbn [read].
    rewrite bind_assoc. reflexivity.
  - (* AIv *) rewrite TK. cbv beta. assert (X : str_in (upper t) (all_regs ++ [#"["; #"]"]) = match o with Val _ => false | _ => true end).
    { unfold str_in in *. rewrite existsb_app, IA. cbn [existsb]. rewrite IB. destruct FW as [| | | | |t V C]; try reflexivity.
      cbn [orb]. rewrite str_neq; [reflexivity|]. intros E. destruct V as (_ & _ & V). apply V, upper_close, E. }
    rewrite X. destruct FW; cbn [sstep]; try (intros s; reflexivity). apply (value_agrees _ _ _ _ mm); [exact R|]. intros s. rewrite L1. cbn [read].
    rewrite bind_assoc. reflexivity.
  - (* AJb *) rewrite TK. cbv beta. rewrite IA. destruct FW as [n t H|n t H|n t H|q d|q|t V C]; cbn [sstep]; try exact I;
      try (intros s; rewrite orb_true_r; reflexivity).
    rewrite (has_colon_false _ C). cbn [orb]. apply (value_agrees _ _ _ _ mm); [exact R|]. intros s. rewrite L1. cbn [read]. rewrite !bind_assoc.
    apply bind_ext. intros a s1. rewrite bind_assoc. reflexivity.
  - (* AJv *) rewrite TK. cbv beta. rewrite IA. destruct FW as [n t H|n t H|n t H|q d|q|t V C]; cbn [sstep]; try exact I;
      try (intros s; rewrite orb_true_r; reflexivity).
    rewrite (has_colon_false _ C). cbn [orb]. apply (value_agrees _ _ _ _ mm); [exact R|]. intros s. rewrite L1. cbn [read]. rewrite !bind_assoc.
    apply bind_ext. intros a s1. rewrite bind_assoc. reflexivity.
  - (* AOb *) rewrite (direct_of o ws pre post W). rewrite ret_bind. destruct o; cbn [sstep]; try (intros s; reflexivity).
    apply (value_agrees _ _ _ _ mm); [exact R|]. intros s. inversion W; subst. cbn [length read]. rewrite bind_assoc. reflexivity.
  - rewrite (direct_of o ws pre post W). rewrite ret_bind. destruct o; cbn [sstep]; try (intros s; reflexivity).
    apply (value_agrees _ _ _ _ mm); [exact R|]. intros s. inversion W; subst. cbn [length read]. rewrite bind_assoc. reflexivity.
  - exact I.
  - specialize (RG segments (match o with SR n => Some n | _ => None end)). destruct o; apply RG; auto; intros X; congruence.
  - (* AM *) rewrite TK. cbv beta. assert (X : str_eqb t #"[" = match o with Mem _ _ | Dir _ => true | _ => false end).
    { destruct (str_eqb t #"[") eqn:E.
      - apply str_eqb_eq in E. subst t. exact IB.
      - destruct o; auto; subst t; discriminate. }
    rewrite X. destruct o; cbn [sstep]; try (intros s; reflexivity).
    + apply memory_agrees; assumption.
    + intros s. apply (memory_skips _ _ _ _ _ _ W).
  - (* AMp *) rewrite (direct_of o ws pre post W). rewrite ret_bind. destruct o; cbn [sstep]; try (intros s; reflexivity).
    assert (R2 : same_modrm (Smod (Some 0) (sm_reg m) (Some 6) (sm_disp m)) (Modrm (Some 0) (mo_reg mm) (Some 6) (mo_disp mm)))
      by (destruct R; split; cbn; auto; lia).
    pose proof (build_agrees _ _ 3 R2) as BA. inversion W; subst. cbn [length].
    destruct (sbuild _) as [| | |pr v m2] eqn:SB; [unfold sbuild in SB; cbn in SB; destruct (sm_reg m); discriminate| |exact I|].
    + intros s s' x. cbn [agrees] in BA. specialize (BA s). unfold bind in *. destruct (build_modrm _ s) as [s1 [b|e]]; [|discriminate].
      exfalso. apply (BA s1 (Some (3%nat, b, Modrm (Some 0) (mo_reg mm) (Some 6) (mo_disp mm)))). reflexivity.
    + destruct v as [v|]; [exact I|]. destruct BA as (mm2 & R3 & BA). 
      exists mm2. split; [exact R3|]. intros s. cbn [ropt] in BA.
      assert (EB : forall s, build_modrm (Modrm (Some 0) (mo_reg mm) (Some 6) (mo_disp mm)) s = (s, Ok (pr ++ [])) /\ mm2 = Modrm (Some 0) (mo_reg mm) (Some 6) (mo_disp mm)).
      { intros s1. specialize (BA s1). unfold bind, ret in BA. destruct (build_modrm _ s1) as [s2 [b|e]]; [|discriminate].
        injection BA as -> -> ->. auto. }
      destruct (EB s) as [E1 ->]. cbv zeta. unfold bind at 1. rewrite E1, app_nil_r. cbn [ropt read]. rewrite bind_assoc. reflexivity.
  - (* AAp *) rewrite TK. cbv beta. replace (has_colon t && negb (str_in (upper t) all_regs)) with false.
    { destruct o; cbn [sstep]; intros s; reflexivity. }
    symmetry. destruct FW as [n t H|n t H|n t H|q d|q|t V C]; try (rewrite IA; apply andb_false_r); try reflexivity.
    rewrite (has_colon_false _ C). reflexivity.
  - (* A3 *) rewrite TK. cbv beta. cbn [sstep]. destruct FW as [n t H|n t H|n t H|q d|q|t V C];
      try (intros s; rewrite str_neq; [reflexivity|intros ->]; destruct H as [_ H]; apply nth_error_In in H; apply str_in_In in H; discriminate);
      try (intros s; reflexivity).
    unfold stag. destruct (str_eqb t #"3") eqn:E; cbn [Z.eqb Pos.eqb].
    + exists mm. split; [exact R|]. intros s. rewrite L1. reflexivity.
    + destruct (str_eqb t #"1"); intros s; reflexivity.
Qed.

(** ** Rows *)
Fixpoint rall (rs : list (fld * str)) : M unit := match rs with [] => ret tt | (f, t) :: rs => read f t ;; rall rs end.
Definition follows (o : outcome str) (r : M (option bytes)) : Prop :=
  match o with
  | Skipped rs => forall s, r s = (rall rs ;; ret None) s
  | Failed => forall s s' x, r s <> (s', Ok x)
  | Unknown => True
  | Done rs pre v => forall s, r s = (rall rs ;; (let! b := ropt v in ret (Some (pre ++ b)))) s
  end.
Lemma missing_agrees : forall a pre mm, agrees 0 (smissing a) (run_arg a pre (length pre) mm).
Proof.
  intros a pre mm.
  assert (T : forall B (k : str -> M B) s s' x, bind (tok_at pre (length pre)) k s <> (s', Ok x)).
  { intros B k s s' x. unfold tok_at. rewrite (proj2 (nth_error_None pre (length pre)) (le_n _)). discriminate. }
  assert (Dn : direct pre (length pre) = ret None).
  { unfold direct. rewrite skipn_all. reflexivity. }
  destruct a; cbn [smissing run_arg]; try exact I; try (intros s; rewrite Dn; reflexivity); try (intros s s' x; apply T).
Qed.
Lemma step_agrees : forall a os ops pre m mm, written os ops -> same_modrm m mm -> known_arg a = true -> (1 <= length pre)%nat ->
  exists n ops', agrees n (match os with o :: _ => sstep stag a (Nat.eqb (length pre) 1) o m | [] => smissing a end)
    (run_arg a (pre ++ ops) (length pre) mm) /\
    (os <> [] -> exists ws, ops = ws ++ ops' /\ n = length ws /\ (1 <= n)%nat) /\ written (tl os) ops'.
Proof.
  intros a os ops pre m mm W R K L. destruct W as [|o os ws ops W1 W].
  - exists 0%nat, []. rewrite app_nil_r. split; [apply missing_agrees|]. split; [congruence|constructor].
  - exists (length ws), ops. split; [apply arg_agrees; assumption|]. split; [|exact W]. intros _. exists ws. split; [reflexivity|]. split; [reflexivity|].
    destruct (written_first _ _ W1) as (t & r & -> & _). cbn [length]. lia.
Qed.
Lemma missing_not_next : forall A a p v m, @smissing A a <> Next p v m.
Proof. intros A [] p v m; discriminate. Qed.
Lemma index_app : forall (pre ws : list str), (length pre + length ws)%nat = length (pre ++ ws).
Proof. intros. rewrite app_length. reflexivity. Qed.
Lemma first_false : forall (pre : list str), (2 <= length pre)%nat -> Nat.eqb (length pre) 1 = false.
Proof. intros pre H. apply Nat.eqb_neq. unfold str in *. lia. Qed.

Lemma row_after : forall args os ops pre m mm p x, forallb known_arg args = true -> written os ops -> same_modrm m mm -> (2 <= length pre)%nat ->
  match srow stag args false os m p (Some x) with
  | Done rs p' v' => rs = [] /\ p' = p /\ v' = Some x /\ forall blob s, run_args args (pre ++ ops) (length pre) mm blob s = (s, Ok (Some blob))
  | Skipped rs => rs = [x] /\ forall blob s, run_args args (pre ++ ops) (length pre) mm blob s = (s, Ok None)
  | Failed => forall blob s s' r, run_args args (pre ++ ops) (length pre) mm blob s <> (s', Ok r)
  | Unknown => True
  end.
Proof.
  induction args as [|a args IH]; intros os ops pre m mm p x KA W R L; cbn [srow run_args].
  { repeat split. }
  cbn [forallb] in KA. apply andb_prop in KA. destruct KA as [K KA].
  destruct (step_agrees a os ops pre m mm W R K ltac:(lia)) as (n & ops' & AG & SP & W'). rewrite (first_false _ L) in AG.
  destruct (match os with [] => smissing a | o :: _ => sstep stag a false o m end) as [| | |pr v m'] eqn:E; cbn [agrees] in AG.
  - split; [reflexivity|]. intros blob s. unfold bind. rewrite AG. reflexivity.
  - intros blob s s' r. unfold bind. specialize (AG s). destruct (run_arg a _ _ mm s) as [s1 [y|e]]; [exfalso; apply (AG s1 y); reflexivity|discriminate].
  - exact I.
  - destruct v as [v|]; [exact I|]. destruct pr as [|z pr]; [|exact I].
    destruct AG as (mm' & R' & AG). assert (NE : os <> []) by (intros ->; exact (missing_not_next _ _ _ _ _ E)).
    destruct (SP NE) as (ws & -> & -> & L1).
    assert (ST : forall blob s, (let! r := run_arg a (pre ++ ws ++ ops') (length pre) mm in
        match r with Some (delta, b, m0) => run_args args (pre ++ ws ++ ops') (length pre + delta) m0 (blob ++ b) | None => ret None end) s =
        run_args args ((pre ++ ws) ++ ops') (length (pre ++ ws)) mm' blob s).
    { intros blob s. unfold bind at 1. rewrite AG. cbn [ropt]. rewrite ret_bind. cbn [ret]. rewrite !app_nil_r, index_app, <- app_assoc. reflexivity. }
    specialize (IH (tl os) ops' (pre ++ ws) m' mm' p x KA W' R' ltac:(rewrite app_length; lia)).
    destruct (srow stag args false (tl os) m' p (Some x)) as [rs| | |rs p' v'].
    + destruct IH as [-> IH]. split; [reflexivity|]. intros blob s. rewrite ST. apply IH.
    + intros blob s s' r. rewrite ST. apply IH.
    + exact I.
    + destruct IH as (-> & -> & -> & IH). repeat split. intros blob s. rewrite ST. apply IH.
Qed.
Lemma row_follows : forall args os ops pre m mm p, forallb known_arg args = true -> written os ops -> same_modrm m mm -> (1 <= length pre)%nat ->
  follows (srow stag args (Nat.eqb (length pre) 1) os m p None) (run_args args (pre ++ ops) (length pre) mm p).
Proof.
  induction args as [|a args IH]; intros os ops pre m mm p KA W R L; cbn [srow run_args].
  { intros s. cbn [rall ropt]. rewrite !ret_bind, app_nil_r. reflexivity. }
  cbn [forallb] in KA. apply andb_prop in KA. destruct KA as [K KA].
  destruct (step_agrees a os ops pre m mm W R K L) as (n & ops' & AG & SP & W').
  destruct (match os with [] => smissing a | o :: _ => sstep stag a (Nat.eqb (length pre) 1) o m end) as [| | |pr v m'] eqn:E; cbn [agrees] in AG.
  - intros s. unfold bind at 1. rewrite AG. reflexivity.
  - intros s s' r. unfold bind. specialize (AG s). destruct (run_arg a _ _ mm s) as [s1 [y|e]]; [exfalso; apply (AG s1 y); reflexivity|discriminate].
  - exact I.
  - destruct AG as (mm' & R' & AG). assert (NE : os <> []) by (intros ->; exact (missing_not_next _ _ _ _ _ E)).
    destruct (SP NE) as (ws & -> & -> & L1). assert (L2 : (2 <= length (pre ++ ws))%nat) by (rewrite app_length; lia).
    assert (ST : forall s, (let! r := run_arg a (pre ++ ws ++ ops') (length pre) mm in
        match r with Some (delta, b, m0) => run_args args (pre ++ ws ++ ops') (length pre + delta) m0 (p ++ b) | None => ret None end) s =
        bind (ropt v) (fun b => run_args args ((pre ++ ws) ++ ops') (length (pre ++ ws)) mm' (p ++ pr ++ b)) s).
    { intros s. unfold bind at 1. rewrite AG. unfold bind. destruct (ropt v s) as [s1 [b|e]]; [|reflexivity].
      cbn [ret]. rewrite index_app, <- app_assoc. reflexivity. }
    destruct v as [x|].
    + pose proof (row_after args (tl os) ops' (pre ++ ws) m' mm' (p ++ pr) x KA W' R' L2) as RA.
      destruct (srow stag args false (tl os) m' (p ++ pr) (Some x)) as [rs| | |rs p' v'].
      * destruct RA as [-> RA]. intros s. rewrite ST. destruct x as [f t]. cbn [rall ropt]. rewrite bind_assoc. apply bind_ext. intros b s1. rewrite RA. reflexivity.
      * intros s s' r. rewrite ST. unfold bind. destruct (ropt (Some x) s) as [s1 [b|e]]; [apply RA|discriminate].
      * exact I.
      * destruct RA as (-> & -> & -> & RA). intros s. rewrite ST. cbn [rall]. rewrite ret_bind. apply bind_ext. intros b s1. rewrite RA, app_assoc. reflexivity.
    + specialize (IH (tl os) ops' (pre ++ ws) m' mm' (p ++ pr) KA W' R' ltac:(lia)). rewrite (first_false _ L2) in IH.
      assert (ST2 : forall s, (let! r := run_arg a (pre ++ ws ++ ops') (length pre) mm in
        match r with Some (delta, b, m0) => run_args args (pre ++ ws ++ ops') (length pre + delta) m0 (p ++ b) | None => ret None end) s =
        run_args args ((pre ++ ws) ++ ops') (length (pre ++ ws)) mm' (p ++ pr) s).
      { intros s. rewrite ST. cbn [ropt]. rewrite ret_bind, app_nil_r. reflexivity. }
      destruct (srow stag args false (tl os) m' (p ++ pr) None); cbn [follows] in *; try exact I.
      * intros s. rewrite ST2. apply IH.
      * intros s s' r. rewrite ST2. apply IH.
      * intros s. rewrite ST2. apply IH.
Qed.

(** ** The whole table of a mnemonic *)
Definition known_row (r : Z * list arg) : bool :=
  let '(base, args) := r in forallb known_arg args && (0 <=? base) && (base <? 65536) && (Z.land base 255 <? 8 + (if base >? 255 then 0 else 256)).
Lemma start_ok : forall base, known_row (base, []) = true -> same_modrm (snd (@start str base))
    (snd (if base >? 0xFF then (Z.shiftr base 8, Modrm None (Some (Z.land base 0xFF)) None None) else (base, Modrm None None None None))) /\
  fst (@start str base) = fst (if base >? 0xFF then (Z.shiftr base 8, Modrm None (Some (Z.land base 0xFF)) None None) else (base, Modrm None None None None)) /\
  0 <= fst (@start str base) < 256.
Proof.
  intros base K. cbn [known_row forallb] in K. rewrite !andb_true_iff in K. destruct K as (((_ & K1) & K2) & K3). unfold start.
  destruct (base >? 255) eqn:E; cbn [fst snd]; (split; [split; cbn; auto|]).
  - split; [apply Z.land_nonneg; right; lia|lia].
  - split; [reflexivity|]. rewrite Z.shiftr_div_pow2 by lia. change (2 ^ 8) with 256. split; [apply Z.div_pos; lia|apply Z.div_lt_upper_bound; lia].
  - split; [reflexivity|]. lia.
Qed.
Lemma rall_app : forall a b s, rall (a ++ b) s = (rall a ;; rall b) s.
Proof.
  induction a as [|[f t] a IH]; intros b s; cbn [app rall]; [reflexivity|]. rewrite bind_assoc. apply bind_ext. intros _ s1. apply IH.
Qed.
Lemma rall_then : forall B a b (k : M B) s, (rall (a ++ b) ;; k) s = (rall a ;; (rall b ;; k)) s.
Proof.
  intros B a b k s. unfold bind. rewrite rall_app. unfold bind. destruct (rall a s) as [s1 [u|e]]; reflexivity.
Qed.
Lemma follows_after : forall rs o (r : M (option bytes)), follows o r -> follows (more_reads rs o) (rall rs ;; r).
Proof.
  intros rs o r F. destruct o as [x| | |x p v]; cbn [follows more_reads] in *; try exact I.
  - intros s. rewrite rall_then. apply bind_ext. intros _ s1. apply F.
  - intros s s' b. unfold bind. destruct (rall rs s) as [s1 [u|e]]; [apply F|discriminate].
  - intros s. rewrite rall_then. apply bind_ext. intros _ s1. apply F.
Qed.
Lemma follows_ext : forall o (a b : M (option bytes)), (forall s, a s = b s) -> follows o b -> follows o a.
Proof. intros [x| | |x p v] a b E F; cbn [follows] in *; try exact I; intros; rewrite E; apply F. Qed.
Lemma rows_follow : forall rows t0 os ops, forallb known_row rows = true -> written os ops ->
  follows (srows stag rows os) (i86_call rows (t0 :: ops)).
Proof.
  induction rows as [|[base args] rows IH]; intros t0 os ops K W; [intros s; reflexivity|].
  cbn [forallb] in K. apply andb_prop in K. destruct K as [K1 K].
  assert (K0 : known_row (base, []) = true) by (cbn [known_row forallb] in *; rewrite !andb_true_iff in *; tauto).
  assert (KA : forallb known_arg args = true) by (cbn [known_row] in K1; rewrite !andb_true_iff in K1; tauto).
  destruct (start_ok base K0) as (R & E & RG). cbn [i86_call srows].
  destruct (@start str base) as [b' m]. destruct (if base >? 255 then _ else _) as [b2 mm]. cbn [fst snd] in *. subst b2.
  specialize (IH t0 os ops K W).
  assert (EL : match os with [] => ops = [] | _ => ops <> [] end).
  { destruct W as [|o os ws ops W1 W]; [reflexivity|]. destruct (written_first _ _ W1) as (t & r & -> & _). discriminate. }
  destruct args as [|a args].
  - destruct os as [|o os].
    + subst ops. cbn [length Nat.eqb]. intros s. rewrite pack_byte1 by exact RG. reflexivity.
    + destruct ops as [|x ops]; [congruence|]. cbn [length Nat.eqb]. intros s s' r. discriminate.
  - destruct os as [|o os].
    + subst ops. cbn [length Nat.ltb Nat.leb]. exact IH.
    + destruct ops as [|x ops]; [congruence|]. cbn [length Nat.ltb Nat.leb].
      pose proof (row_follows (a :: args) (o :: os) (x :: ops) [t0] m mm [] KA W R (le_n _)) as RF. cbn [length Nat.eqb] in RF.
      destruct (srow stag (a :: args) true (o :: os) m [] None) as [rs| | |rs p v]; cbn [follows] in RF.
      * eapply follows_ext; [|apply follows_after, IH]. intros s. unfold bind. change (t0 :: x :: ops) with ([t0] ++ x :: ops). rewrite RF.
        unfold bind. destruct (rall rs s) as [s1 [u|e]]; reflexivity.
      * intros s s' r. unfold bind. change (t0 :: x :: ops) with ([t0] ++ x :: ops). specialize (RF s). destruct (run_args _ _ _ _ _ s) as [s1 [y|e]]; [|discriminate].
        exfalso. apply (RF s1 y). reflexivity.
      * exact I.
      * intros s. change (t0 :: x :: ops) with ([t0] ++ x :: ops). unfold bind at 1. rewrite RF. unfold bind. destruct (rall rs s) as [s1 [u|e]]; [|reflexivity].
        destruct (ropt v s1) as [s2 [b|e]]; [|reflexivity]. cbn [ret]. rewrite pack_byte1 by exact RG. reflexivity.
Qed.
