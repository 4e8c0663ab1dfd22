(** The names of the 68000 instructions. *)
From Coq Require Import Lia.
From Verif Require Import Py PyFacts Utils Tokenizer State Assembler Instr Mc68000.
From Verif Require Import SpecUtils SpecExec SpecLink SpecCpu UtilsFacts CpuFacts WordFacts SpecM68 M68Lex M68Facts M68Ops.
Local Open Scope Z_scope.

Lemma dget_key : forall V W (f : str -> V -> W) l k, dget str_eqb (map (fun '(n, v) => (n, f n v)) l) k = option_map (f k) (dget str_eqb l k).
Proof.
  intros V W f l k. induction l as [|[n v] l IH]; [reflexivity|]. cbn [map dget]. destruct (str_eqb k n) eqn:E; [|exact IH].
  apply str_eqb_eq in E. subst. reflexivity.
Qed.
Lemma mc_lookup : forall e t, dget str_eqb (c_instructions (mc68000 e)) (upper t) =
  option_map (fun k => match k with Some k => OFun (mc_run k) | None => OStatic (mc_static (lower t)) end) (dget str_eqb mc_table (lower t)).
Proof.
  intros e t. unfold mc68000, mk_cfg. cbn [c_instructions].
  rewrite register_all_upper; [|reflexivity|vm_compute; reflexivity].
  rewrite dget_lower; [|vm_compute; reflexivity].
  apply (dget_key _ _ (fun n k => match k with Some k => OFun (mc_run k) | None => OStatic (mc_static n) end)).
Qed.
Lemma mc_key : forall e t, op_key (mc68000 e) t = upper t.
Proof. reflexivity. Qed.

Lemma cond_lower : forall n t, mc_cond (skipn n t) = mc_cond (skipn n (lower t)).
Proof.
  intros n t. unfold mc_cond. replace (upper (firstn 2 (skipn n (lower t)))) with (upper (firstn 2 (skipn n t))); [reflexivity|].
  unfold lower, upper. rewrite skipn_map, firstn_map, map_map. apply map_ext. intros c.
  destruct c as [[] [] [] [] [] [] [] []]; vm_compute; reflexivity.
Qed.

Definition name_of (t0 : str) (k : mc_call) : Prop :=
  match k with
  | CMove => exists sz, sized t0 #"move" sz
  | CMovea => exists sz, sz <> 1 /\ sized t0 #"movea" sz
  | CImm base status => exists name sz, In (name, base) imm_names /\ (status = true <-> In (name, base) status_names) /\ sized t0 name sz
  | CJump base => In (lower t0, base) jump_names
  | CLea => lower t0 = #"lea" \/ lower t0 = #"lea.l"
  | CBcc => exists name c sz, In (name, c) cond_names /\ sized t0 (#"b" ++ name) sz /\ (sz = 1 \/ sz = 2)
  | CDbcc => (exists name c, In (name, c) ((#"ra", 1) :: cond_names) /\ sized t0 (#"db" ++ name) 2) \/
      (exists name c, In (name, c) [(#"t", 0); (#"f", 1)] /\ lower t0 = #"db" ++ name) \/
      lower t0 = #"dbt.w" \/ lower t0 = #"dbf.w"
  end.

Ltac szd := first [apply sz_none; assumption | apply sz_byte; assumption | apply sz_word; assumption | apply sz_long; assumption].
Ltac inl := first [left; reflexivity | right; inl].
Lemma branch_names : forall pre cs sufs ns, forallb (fun n => existsb (fun '(nm, _) => existsb (fun suf => str_eqb n (pre ++ nm ++ suf)) sufs) cs) ns = true ->
  forall n, In n ns -> exists (nm : str) (c : Z) suf, In (nm, c) cs /\ In suf sufs /\ n = pre ++ nm ++ suf.
Proof.
  intros pre cs sufs ns H n I. rewrite forallb_forall in H. apply H in I. apply existsb_exists in I. destruct I as ((nm & c) & I & J).
  apply existsb_exists in J. destruct J as (suf & J & E). apply str_eqb_eq in E. eauto 8.
Qed.
Lemma names_of : forall t0 k, dget str_eqb mc_table (lower t0) = Some (Some k) -> name_of t0 k.
Proof.
  intros t0 k H. apply (dget_In str_eqb str_eqb_eq) in H. unfold mc_table in H. apply in_app_or in H.
  destruct H as [[H|[H|[]]]|H]; try discriminate H.
  apply in_flat_map in H. destruct H as ((ns & k') & I & H). apply in_map_iff in H. destruct H as (n & E & N).
  injection E as -> ->. revert N. unfold mc_names in I.
  assert (IMM : forall name base st, In (name, base) imm_names -> (st = true <-> In (name, base) status_names) ->
    In (lower t0) [name; name ++ #".w"; name ++ #".b"; name ++ #".l"] -> name_of t0 (CImm base st)).
  { intros name base st I1 I2 N. destruct N as [N|[N|[N|[N|[]]]]]; symmetry in N; exists name; [exists 2|exists 2|exists 1|exists 4];
      (split; [exact I1|]; split; [exact I2|]; szd). }
  assert (YES : forall name base, In (name, base) status_names -> true = true <-> In (name, base) status_names) by (intros; split; auto).
  assert (NO : forall name base, str_in name (map fst status_names) = false -> false = true <-> In (name, base) status_names).
  { intros name base F. split; [discriminate|]. intros J. apply (in_map fst) in J. cbn [fst] in J.
    apply str_in_In in J. rewrite J in F. discriminate. }
  destruct I as [I|[I|[I|[I|[I|[I|[I|[I|[I|[I|[I|[I|[I|[]]]]]]]]]]]]]]; injection I as <- <-.
  - intros N. destruct N as [N|[N|[N|[N|[]]]]]; symmetry in N; [exists 2|exists 2|exists 1|exists 4]; szd.
  - intros N. destruct N as [N|[N|[N|[]]]]; symmetry in N; [exists 2|exists 2|exists 4]; (split; [discriminate|]; szd).
  - apply (IMM #"ori"); [inl|apply YES; inl].
  - apply (IMM #"andi"); [inl|apply YES; inl].
  - apply (IMM #"subi"); [inl|apply NO; vm_compute; reflexivity].
  - apply (IMM #"addi"); [inl|apply NO; vm_compute; reflexivity].
  - apply (IMM #"eori"); [inl|apply YES; inl].
  - apply (IMM #"cmpi"); [inl|apply NO; vm_compute; reflexivity].
  - intros [N|[]]. cbn [name_of]. rewrite <- N. inl.
  - intros [N|[N|[]]]; cbn [name_of]; rewrite <- N; auto.
  - intros N. apply (branch_names #"b" cond_names [[]; #".b"; #".w"]) in N; [|vm_compute; reflexivity].
    destruct N as (nm & c & suf & I & S & E). exists nm, c. destruct S as [<-|[<-|[<-|[]]]].
    + exists 2. split; [exact I|]. split; [|auto]. apply sz_none. rewrite app_nil_r in E. exact E.
    + exists 1. split; [exact I|]. split; [|auto]. apply sz_byte. rewrite <- app_assoc. exact E.
    + exists 2. split; [exact I|]. split; [|auto]. apply sz_word. rewrite <- app_assoc. exact E.
  - intros N. apply (branch_names #"db" ((#"t", 0) :: (#"f", 1) :: (#"ra", 1) :: cond_names) [[]; #".w"]) in N; [|vm_compute; reflexivity].
    destruct N as (nm & c & suf & I & S & E). cbn [name_of]. destruct I as [I|[I|I]].
    + injection I as <- <-. right. destruct S as [<-|[<-|[]]]; [left|right; left; exact E]. exists #"t", 0. split; [inl|exact E].
    + injection I as <- <-. right. destruct S as [<-|[<-|[]]]; [left|right; right; exact E]. exists #"f", 1. split; [inl|exact E].
    + left. exists nm, c. split; [exact I|]. destruct S as [<-|[<-|[]]].
      * apply sz_none. rewrite app_nil_r in E. exact E.
      * apply sz_word. rewrite <- app_assoc. exact E.
  - intros [N|[]]. cbn [name_of]. rewrite <- N. inl.
Qed.

(** ** From the name to the parameters *)

Lemma sized_ok : forall t0 name sz, sized t0 name sz -> size_ok sz.
Proof. intros t0 name sz []; unfold size_ok; auto. Qed.
Lemma sized_text : forall t0 name sz, sized t0 name sz -> exists suf, In (suf, sz) [([], 2); (#".b", 1); (#".w", 2); (#".l", 4)] /\ lower t0 = name ++ suf.
Proof.
  intros t0 name sz []; [exists []|exists #".b"|exists #".w"|exists #".l"]; (split; [inl|assumption || (rewrite app_nil_r; assumption)]).
Qed.
(** Whatever can be decided from the name in small letters. *)
Lemma by_name : forall t0 sz names (P : str -> Z -> str -> Prop),
  (forall name, In name names -> P name 2 name /\ P name 1 (name ++ #".b") /\ P name 2 (name ++ #".w") /\ P name 4 (name ++ #".l")) ->
  forall name, In name names -> sized t0 name sz -> P name sz (lower t0).
Proof. intros t0 sz names P H name I S. destruct (H name I) as (H1 & H2 & H3 & H4). destruct S as [E|E|E|E]; rewrite E; assumption. Qed.

Definition dark_of (n : str) : Z * Z :=
  if ends_with #".b" n then (1, 1) else if ends_with #".l" n then (4, 2) else if ends_with #".w" n then (2, 3) else (2, 3).
Definition light_of (n : str) : Z * Z :=
  if ends_with #".b" n then (1, 0) else if ends_with #".l" n then (4, 2) else if ends_with #".w" n then (2, 1) else (2, 1).
Ltac each := let J := fresh in intros ? J; repeat (destruct J as [<-|J]; [repeat split; vm_compute; reflexivity|]); destruct J.

Lemma move_dark : forall t0 name sz, In name [#"move"; #"movea"] -> sized t0 name sz -> mc_s_dark t0 = (sz, move_size sz).
Proof.
  intros t0 name sz I S. apply (by_name t0 sz [#"move"; #"movea"] (fun _ sz n => dark_of n = (sz, move_size sz)) ltac:(each) name I S).
Qed.
Lemma imm_light : forall t0 name base sz, In (name, base) imm_names -> sized t0 name sz -> mc_s_light t0 = (sz, op_size sz).
Proof.
  intros t0 name base sz I S. apply (in_map fst) in I. exact (by_name t0 sz (map fst imm_names) (fun _ sz n => light_of n = (sz, op_size sz)) ltac:(each) name I S).
Qed.
Lemma imm_base : forall name base, In (name, base) imm_names -> (256 | base).
Proof.
  intros name base I. repeat (destruct I as [I|I]; [injection I as <- <-; match goal with |- (256 | ?b) => exists (b / 256); reflexivity end|]). destruct I.
Qed.
Lemma cond_range : forall name c, In (name, c) ((#"ra", 1) :: cond_names) -> 0 <= c < 16.
Proof. intros name c I. repeat (destruct I as [I|I]; [injection I as <- <-; lia|]). destruct I. Qed.
Lemma pair_check : forall (A : Type) (l : list (str * A)) (P : str -> A -> Prop), Forall (fun x => P (fst x) (snd x)) l -> forall n a, In (n, a) l -> P n a.
Proof. intros A l P H n a I. rewrite Forall_forall in H. exact (H _ I). Qed.
Lemma branch_cond : forall name c t0, In (name, c) cond_names -> forall sz, sized t0 (#"b" ++ name) sz -> mc_cond (skipn 1 t0) = Ok c.
Proof.
  intros name c t0 I sz S. rewrite cond_lower. destruct (sized_text _ _ _ S) as (suf & _ & ->). revert suf. clear S.
  apply (pair_check _ cond_names (fun name c => forall suf, mc_cond (skipn 1 ((#"b" ++ name) ++ suf)) = Ok c)); [|exact I].
  repeat (apply Forall_cons; [intros suf; vm_compute; reflexivity|]). apply Forall_nil.
Qed.
Lemma loop_cond : forall name c t0, In (name, c) ((#"ra", 1) :: cond_names) -> forall sz, sized t0 (#"db" ++ name) sz -> mc_cond (skipn 2 t0) = Ok c.
Proof.
  intros name c t0 I sz S. rewrite cond_lower. destruct (sized_text _ _ _ S) as (suf & _ & ->). revert suf. clear S.
  apply (pair_check _ ((#"ra", 1) :: cond_names) (fun name c => forall suf, mc_cond (skipn 2 ((#"db" ++ name) ++ suf)) = Ok c)); [|exact I].
  repeat (apply Forall_cons; [intros suf; vm_compute; reflexivity|]). apply Forall_nil.
Qed.
Lemma tf_cond : forall name c t0, In (name, c) [(#"t", 0); (#"f", 1)] -> lower t0 = #"db" ++ name -> mc_cond (skipn 2 t0) = Ok c.
Proof. intros name c t0 [I|[I|[]]] E; injection I as <- <-; rewrite cond_lower, E; vm_compute; reflexivity. Qed.
Lemma branch_dark : forall name c t0 sz, In (name, c) cond_names -> sized t0 (#"b" ++ name) sz -> sz = 1 \/ sz = 2 -> exists k, mc_s_dark t0 = (sz, k).
Proof.
  intros name c t0 sz I S Z. change (exists k, dark_of (lower t0) = (sz, k)). exists (if sz =? 1 then 1 else 3). apply (in_map fst) in I. cbn [fst] in I.
  apply (in_map (fun n => #"b" ++ n)) in I.
  pose proof (by_name t0 sz (map (fun n => #"b" ++ n) (map fst cond_names)) (fun _ sz n => sz = 4 \/ dark_of n = (sz, if sz =? 1 then 1 else 3))) as B.
  destruct (B ltac:(intros ? J; repeat (destruct J as [<-|J]; [repeat split; first [left; reflexivity|right; vm_compute; reflexivity]|]); destruct J) _ I S) as [->|E]; [lia|exact E].
Qed.

(** The table. *)
Lemma move_call : forall t0 sz, sized t0 #"move" sz -> dget str_eqb mc_table (lower t0) = Some (Some CMove).
Proof. intros t0 sz [E|E|E|E]; rewrite E; vm_compute; reflexivity. Qed.
Lemma movea_call : forall t0 sz, sized t0 #"movea" sz -> sz <> 1 -> dget str_eqb mc_table (lower t0) = Some (Some CMovea).
Proof. intros t0 sz [E|E|E|E] N; rewrite E; try lia; vm_compute; reflexivity. Qed.
Lemma imm_call : forall t0 name base sz, In (name, base) imm_names -> sized t0 name sz ->
  exists status, dget str_eqb mc_table (lower t0) = Some (Some (CImm base status)) /\ (status = true <-> In (name, base) status_names).
Proof.
  intros t0 name base sz I S. exists (str_in name (map fst status_names)). split.
  - repeat (destruct I as [I|I]; [injection I as <- <-; destruct S as [E|E|E|E]; rewrite E; vm_compute; reflexivity|]). destruct I.
  - split.
    + repeat (destruct I as [I|I]; [injection I as <- <-; first [intros; inl|intros X; vm_compute in X; discriminate X]|]). destruct I.
    + intros J. apply (in_map fst) in J. apply str_in_In. exact J.
Qed.
Lemma jump_call : forall t0 base, In (lower t0, base) jump_names -> dget str_eqb mc_table (lower t0) = Some (Some (CJump base)).
Proof. intros t0 base [E|[E|[]]]; injection E as E <-; rewrite <- E; vm_compute; reflexivity. Qed.
Lemma lea_call : forall t0, lower t0 = #"lea" \/ lower t0 = #"lea.l" -> dget str_eqb mc_table (lower t0) = Some (Some CLea).
Proof. intros t0 [E|E]; rewrite E; vm_compute; reflexivity. Qed.
Lemma branch_call : forall name c t0 sz, In (name, c) cond_names -> sized t0 (#"b" ++ name) sz -> sz = 1 \/ sz = 2 ->
  dget str_eqb mc_table (lower t0) = Some (Some CBcc).
Proof.
  intros name c t0 sz I S Z. apply (in_map fst) in I. cbn [fst] in I. apply (in_map (fun n => #"b" ++ n)) in I.
  pose proof (by_name t0 sz (map (fun n => #"b" ++ n) (map fst cond_names)) (fun _ sz n => sz = 4 \/ dget str_eqb mc_table n = Some (Some CBcc))) as B.
  destruct (B ltac:(intros ? J; repeat (destruct J as [<-|J]; [repeat split; first [left; reflexivity|right; vm_compute; reflexivity]|]); destruct J) _ I S) as [->|E]; [lia|exact E].
Qed.
Lemma loop_call : forall name c t0, In (name, c) ((#"ra", 1) :: cond_names) -> sized t0 (#"db" ++ name) 2 ->
  dget str_eqb mc_table (lower t0) = Some (Some CDbcc).
Proof.
  intros name c t0 I S. apply (in_map fst) in I. cbn [fst] in I. apply (in_map (fun n => #"db" ++ n)) in I.
  pose proof (by_name t0 2 (map (fun n => #"db" ++ n) (map fst ((#"ra", 1) :: cond_names))) (fun _ sz n => sz <> 2 \/ dget str_eqb mc_table n = Some (Some CDbcc))) as B.
  destruct (B ltac:(intros ? J; repeat (destruct J as [<-|J]; [repeat split; first [left; discriminate|right; vm_compute; reflexivity]|]); destruct J) _ I S) as [E|E]; [lia|exact E].
Qed.
Lemma tf_call : forall name (c : Z) t0, In (name, c) [(#"t", 0); (#"f", 1)] -> lower t0 = #"db" ++ name -> dget str_eqb mc_table (lower t0) = Some (Some CDbcc).
Proof. intros name c t0 [I|[I|[]]] E; injection I as <- <-; rewrite E; vm_compute; reflexivity. Qed.

(** ** All instructions *)

Lemma form_complete : forall t0 ops items, form true t0 ops items ->
  (exists w, items = [Fixed w] /\ ops = [] /\ dget str_eqb mc_table (lower t0) = Some None /\ mc_static (lower t0) = msb 2 w) \/
  exists k, dget str_eqb mc_table (lower t0) = Some (Some k) /\ forall s, 0 <= pc s -> delivers (mc_run k) t0 ops s items.
Proof.
  intros t0 ops items F. destruct F.
  - left. exists 0x4E75. rewrite H. repeat split; vm_compute; reflexivity.
  - left. exists 0x4E71. rewrite H. repeat split; vm_compute; reflexivity.
  - right. exists CMove. split; [eapply move_call; eauto|]. intros s PC. cbn [mc_run].
    eapply move_complete; [eapply sized_ok; eauto|eapply move_dark; eauto; inl|exact PC|].
    exists src, sm, sr, si. split; [assumption|]. right. exists dst, dm, dr, di, []. rewrite app_nil_r. auto.
  - right. destruct H as [H|H].
    + exists CMove. split; [eapply move_call; eauto|]. intros s PC. cbn [mc_run].
      eapply move_complete; [eapply sized_ok; eauto|eapply move_dark; eauto; inl|exact PC|].
      exists src, sm, sr, si. split; [assumption|]. left. exists t, n. auto.
    + exists CMovea. split; [eapply movea_call; eauto|]. intros s PC. cbn [mc_run].
      eapply movea_complete; [eapply sized_ok; eauto|eapply move_dark; eauto; inl|exact PC|].
      exists src, sm, sr, si, t, n. auto.
  - right. destruct (imm_call _ _ _ _ H H0) as (status & E & S). exists (CImm base status). split; [exact E|]. intros s PC. cbn [mc_run].
    eapply imm_complete; [eapply sized_ok; eauto|eapply imm_light; eauto|eapply imm_base; eauto|exact PC|].
    left. exists x, dst, dm, dr, di, []. rewrite app_nil_r. repeat (split; auto). intros X. apply H4. apply S. exact X.
  - right. assert (I : In (name, base) imm_names) by (destruct H as [H|[H|[H|[]]]]; injection H as <- <-; inl).
    destruct (imm_call _ _ _ _ I H0) as (status & E & S). exists (CImm base status). split; [exact E|]. intros s PC. cbn [mc_run].
    eapply imm_complete; [eapply sized_ok; eauto|eapply imm_light; eauto|eapply imm_base; eauto|exact PC|].
    right. split; [apply S; exact H|]. exists x, t. auto.
  - right. assert (I : In (name, base) imm_names) by (destruct H as [H|[H|[H|[]]]]; injection H as <- <-; inl).
    destruct (imm_call _ _ _ _ I H0) as (status & E & S). exists (CImm base status). split; [exact E|]. intros s PC. cbn [mc_run].
    eapply imm_complete; [eapply sized_ok; eauto|eapply imm_light; eauto|eapply imm_base; eauto|exact PC|].
    right. split; [apply S; exact H|]. exists x, t. auto.
  - right. exists (CJump base). split; [apply jump_call; assumption|]. intros s PC. cbn [mc_run]. apply jump_complete; [|exact PC|].
    + destruct H as [H|[H|[]]]; injection H as _ <-; match goal with |- (64 | ?b) => exists (b / 64); reflexivity end.
    + exists src, sm, sr, si, []. rewrite app_nil_r. auto.
  - right. exists CLea. split; [apply lea_call; assumption|]. intros s PC. cbn [mc_run]. apply lea_complete; [exact PC|].
    exists src, sm, sr, si, t, n. auto.
  - right. exists CBcc. split; [eapply branch_call; eauto|]. intros s PC. cbn [mc_run].
    destruct (branch_dark _ _ _ _ H H0 (or_introl eq_refl)) as (k & D).
    eapply (bcc_complete t0 1 k c); [auto|exact D|eapply branch_cond; eauto|eapply cond_range; right; eauto|exact PC|].
    exists x. auto.
  - right. exists CBcc. split; [eapply branch_call; eauto|]. intros s PC. cbn [mc_run].
    destruct (branch_dark _ _ _ _ H H0 (or_intror eq_refl)) as (k & D).
    eapply (bcc_complete t0 2 k c); [auto|exact D|eapply branch_cond; eauto|eapply cond_range; right; eauto|exact PC|].
    exists x. auto.
  - right. exists CDbcc. split; [eapply loop_call; eauto|]. intros s PC. cbn [mc_run].
    eapply (dbcc_complete t0 c); [eapply loop_cond; eauto|eapply cond_range; eauto|exact PC|]. exists t, n, x. auto.
  - right. exists CDbcc. split; [eapply tf_call; eauto|]. intros s PC. cbn [mc_run].
    eapply (dbcc_complete t0 c); [eapply tf_cond; eauto| |exact PC|exists t, n, x; auto].
    destruct H as [H|[H|[]]]; injection H as _ <-; lia.
Qed.

(** What an accepted statement is: one of the forms, and in some cases something after it. *)
Definition accepted (t0 : str) (ops : list str) (items : list item) : Prop :=
  exists pre rest, ops = pre ++ rest /\ form false t0 pre items /\ (rest = [] \/ open_ended t0).
Lemma whole : forall t0 ops items, form false t0 ops items -> accepted t0 ops items.
Proof. intros t0 ops items F. exists ops, []. rewrite app_nil_r. auto. Qed.
Lemma form_sound : forall t0 k, dget str_eqb mc_table (lower t0) = Some (Some k) -> sound_for (mc_run k) t0 (accepted t0).
Proof.
  intros t0 k D. pose proof (names_of _ _ D) as N.
  assert (W : forall f (P Q : list str -> list item -> Prop), sound_for f t0 P -> (forall ops items, P ops items -> Q ops items) -> sound_for f t0 Q).
  { intros f P Q H PQ ops s s1 b PC E. destruct (H _ _ _ _ PC E) as (items & ds & H1 & H2). eauto. }
  destruct k; cbn [name_of mc_run] in *.
  - destruct N as (sz & S). eapply W; [eapply move_sound; [eapply sized_ok; eauto|eapply move_dark; eauto; inl]|].
    intros ops items (src & sm & sr & si & E & [(t & n & -> & Z & A & ->)|(dst & dm & dr & di & rest & -> & _ & E2 & AL & ->)]).
    + apply whole. eapply f_movea; eauto.
    + exists (src ++ dst), rest. rewrite app_assoc. split; [reflexivity|]. split; [eapply f_move; eauto|]. right. left. exists #"move", sz. split; [inl|exact S].
  - destruct N as (sz & Z & S). eapply W; [eapply movea_sound; [eapply sized_ok; eauto|eapply move_dark; eauto; inl]|].
    intros ops items (src & sm & sr & si & t & n & E & -> & A & ->). apply whole. eapply f_movea; eauto.
  - destruct N as (name & sz & I & ST & S). eapply W; [eapply imm_sound; [eapply sized_ok; eauto|eapply imm_light; eauto|eapply imm_base; eauto]|].
    intros ops items [(x & dst & dm & dr & di & rest & -> & _ & X & E & A & NS & ->)|(X & x & t & -> & NX & [[T ->]|[T ->]])].
    + exists ((#"#" ++ x) :: dst), rest. split; [reflexivity|]. split; [eapply f_imm; eauto|].
      * intros J. apply NS. apply ST. exact J.
      * right. left. exists name, sz. split; [right; apply (in_map fst) in I; exact I|exact S].
    + apply whole. eapply f_ccr; eauto. apply ST. exact X.
    + apply whole. eapply f_sr; eauto. apply ST. exact X.
  - eapply W; [apply jump_sound|].
    + destruct N as [H|[H|[]]]; injection H as _ <-; match goal with |- (64 | ?b) => exists (b / 64); reflexivity end.
    + intros ops items (src & sm & sr & si & rest & -> & _ & E & C & ->). exists src, rest. split; [reflexivity|]. split; [eapply f_jump; eauto|].
      right. right. apply (in_map fst) in N. exact N.
  - eapply W; [apply lea_sound|]. intros ops items (src & sm & sr & si & t & n & E & C & -> & A & ->). apply whole. eapply f_lea; eauto.
  - destruct N as (name & c & sz & I & S & Z). destruct (branch_dark _ _ _ _ I S Z) as (k & DK).
    eapply W; [eapply (bcc_sound t0 sz k c); [exact Z|exact DK|eapply branch_cond; eauto|eapply cond_range; right; eauto]|].
    intros ops items (x & -> & V & ->). apply whole. destruct Z as [-> | ->]; cbn [Z.eqb Pos.eqb]; [eapply f_branch8; eauto|eapply f_branch16; eauto].
  - destruct N as [(name & c & I & S)|[(name & c & I & E)|E]].
    + eapply W; [eapply (dbcc_sound t0 c); [eapply loop_cond; eauto|eapply cond_range; eauto]|].
      intros ops items (t & n & x & -> & T & V & ->). apply whole. eapply f_loop; eauto.
    + eapply W; [eapply (dbcc_sound t0 c); [eapply tf_cond; eauto|destruct I as [H|[H|[]]]; injection H as _ <-; lia]|].
      intros ops items (t & n & x & -> & T & V & ->). apply whole. eapply f_loop_tf; eauto.
    + intros ops s s1 b PC H. exfalso. unfold mc_dbcc in H. destruct (imatch _ _ _) in H; [|discriminate H].
      rewrite tok_first, ret_bind, cond_lower in H. destruct E as [E|E]; rewrite E in H; vm_compute in H; discriminate H.
Qed.
