(** The LR35902 model encodes the instructions of its manual: the finite comparison. *)
From Coq Require Import Lia.
From Verif Require Import Py PyFacts Utils Tokenizer State Assembler Instr Lr35902.
From Verif Require Import SpecUtils SpecSubst SpecExec SpecCpu SpecByte SpecLr UtilsFacts CpuFacts MosFacts WordFacts LrFacts.
Local Open Scope Z_scope.

(** ** The manual as a function *)

Definition page (t : str) : bool := starts_with #"$FF00+" t.
Definition kmatch (k : kind) (t : str) : bool :=
  match k with
  | W w => str_eqb (upper t) w
  | V _ => negb (str_in (upper t) reserved)
  | Page => page t && negb (str_eqb (upper t) #"$FF00+C")
  | Addr => negb (str_in (upper t) reserved) && negb (page t) && negb (str_eqb (upper t) #"$FF00+C")
  end.
Definition kop (k : kind) (i : nat) : list (field * nat * nat) :=
  match k with W _ => [] | V f => [(f, i, 0%nat)] | Page => [(Byte, i, 6%nat)] | Addr => [(SpecByte.Word, i, 0%nat)] end.
Fixpoint kwants (ks : list kind) (ops : list str) (i : nat) : option (list (field * nat * nat)) :=
  match ks, ops with
  | [], [] => Some []
  | k :: ks', t :: ops' => if kmatch k t then option_map (app (kop k i)) (kwants ks' ops' (S i)) else None
  | _, _ => None
  end.
Definition forms_of (m : str) : list (bytes * list kind) :=
  flat_map (fun '(n, f) => if str_eqb n m then [f] else []) manual.
Definition spec_sel (fs : list (bytes * list kind)) (ops : list str) : list want :=
  flat_map (fun '(pre, ks) => match kwants ks ops 0 with Some l => [(pre, l)] | None => [] end) fs.

Lemma page_iff : forall t, page t = false <-> (forall x, t <> #"$FF00+" ++ x).
Proof.
  intros t. unfold page. split.
  - intros P x ->. rewrite (proj2 (starts_with_iff _ _)) in P; [discriminate|]. eauto.
  - intros N. destruct (starts_with #"$FF00+" t) eqn:E; [|reflexivity]. apply starts_with_iff in E. destruct E as [x E]. destruct (N x E).
Qed.
Lemma not_reserved : forall t, negb (str_in (upper t) reserved) = true <-> ~ In (upper t) reserved.
Proof.
  intros t. rewrite negb_true_iff. split.
  - intros F I. apply str_in_In in I. congruence.
  - intros N. destruct (str_in (upper t) reserved) eqn:E; [|reflexivity]. apply str_in_In in E. tauto.
Qed.
Lemma operand_iff : forall k pre t post v, operand k t v <->
  kmatch k t = true /\ v = picked (pre ++ t :: post) (kop k (length pre)).
Proof.
  intros k pre t post v. unfold picked.
  assert (N : nth (length pre) (pre ++ t :: post) [] = t) by (rewrite app_nth2, Nat.sub_diag by lia; reflexivity).
  destruct k; cbn [kmatch kop map]; rewrite ?N; change (skipn 0 t) with t.
  - split.
    + intros H. inversion H; subst. split; [apply str_eqb_eq; reflexivity|reflexivity].
    + intros [E ->]. apply str_eqb_eq in E. constructor. exact E.
  - split.
    + intros H. inversion H; subst. split; [apply not_reserved; assumption|reflexivity].
    + intros [E ->]. constructor. apply not_reserved. exact E.
  - split.
    + intros H. inversion H; subst. split; [|reflexivity]. apply andb_true_intro. split.
      * apply starts_with_iff. eauto.
      * apply negb_true_iff. destruct (str_eqb (upper (#"$FF00+" ++ t0)) #"$FF00+C") eqn:E; [|reflexivity].
        apply str_eqb_eq in E. unfold upper in E. rewrite map_app in E.
        change #"$FF00+C" with (map upper_chr #"$FF00+" ++ #"C") in E. apply app_inv_head in E. tauto.
    + intros [E ->]. apply andb_prop in E. destruct E as [E1 E2]. apply starts_with_iff in E1. destruct E1 as [x ->].
      change (skipn 6 (#"$FF00+" ++ x)) with x. constructor. intros X. apply negb_true_iff in E2.
      unfold upper in *. rewrite map_app, X in E2. discriminate.
  - split.
    + intros H. inversion H; subst. split; [|reflexivity]. apply andb_true_intro. split; [apply andb_true_intro; split|].
      * apply not_reserved; assumption.
      * apply negb_true_iff. apply page_iff. assumption.
      * apply negb_true_iff. destruct (str_eqb (upper t) #"$FF00+C") eqn:E; [apply str_eqb_eq in E; tauto|reflexivity].
    + intros [E ->]. apply andb_prop in E. destruct E as [E E3]. apply andb_prop in E. destruct E as [E1 E2].
      constructor; [apply not_reserved; exact E1|apply page_iff; apply negb_true_iff; exact E2|].
      intros X. rewrite X in E3. discriminate.
Qed.
Lemma operands_iff : forall ks pre ops vs, operands ks ops vs <->
  exists l, kwants ks ops (length pre) = Some l /\ vs = picked (pre ++ ops) l.
Proof.
  induction ks as [|k ks IH]; intros pre ops vs; destruct ops as [|t ops]; cbn [kwants].
  - split; [intros H; inversion H; subst; exists []; auto|]. intros (l & E & ->). injection E as <-. constructor.
  - split; [intros H; inversion H|]. intros (l & E & _). discriminate.
  - split; [intros H; inversion H|]. intros (l & E & _). discriminate.
  - assert (EQ : pre ++ t :: ops = (pre ++ [t]) ++ ops) by (rewrite <- app_assoc; reflexivity).
    assert (LN : length (pre ++ [t]) = S (length pre)) by (rewrite app_length; cbn; lia).
    split.
    + intros H. inversion H as [|k0 ks0 t0 ts0 v0 vs0 O1 O2]; subst. apply (operand_iff k pre t ops) in O1. destruct O1 as [K ->].
      apply (IH (pre ++ [t])) in O2. destruct O2 as (l & E & ->). rewrite LN in E. rewrite K, E. cbn [option_map].
      eexists. split; [reflexivity|]. rewrite EQ. unfold picked. rewrite map_app. reflexivity.
    + intros (l & E & ->). destruct (kmatch k t) eqn:K; [|discriminate].
      destruct (kwants ks ops (S (length pre))) as [l'|] eqn:E2; [|discriminate]. injection E as <-.
      unfold picked. rewrite map_app. constructor.
      * apply (operand_iff k pre t ops). auto.
      * apply (IH (pre ++ [t])). exists l'. rewrite LN. split; [exact E2|]. rewrite EQ. reflexivity.
Qed.
Lemma encodes_iff : forall s m ops b ds, encodes s m ops b ds <->
  exists pre l, In (pre, l) (spec_sel (forms_of m) ops) /\ laid_out gb_p s pre [] (picked ops l) b ds.
Proof.
  intros s m ops b ds. unfold encodes, spec_sel, forms_of. split.
  - intros (pre & ks & vs & I & O & L). apply (operands_iff ks []) in O. destruct O as (l & K & ->).
    exists pre, l. split; [|exact L]. apply in_flat_map. exists (pre, ks). split.
    + apply in_flat_map. exists (m, (pre, ks)). split; [exact I|]. rewrite (proj2 (str_eqb_eq m m) eq_refl). left. reflexivity.
    + cbn [length] in K. rewrite K. left. reflexivity.
  - intros (pre & l & I & L). apply in_flat_map in I. destruct I as ((pre' & ks) & I & J).
    destruct (kwants ks ops 0) as [l'|] eqn:K; [|destruct J]. destruct J as [J|[]]. injection J as <- <-.
    apply in_flat_map in I. destruct I as ((n & f) & I & J). destruct (str_eqb n m) eqn:E; [|destruct J].
    apply str_eqb_eq in E. subst n. destruct J as [->|[]]. exists pre', ks, (picked ops l'). split; [exact I|]. split; [|exact L].
    apply (operands_iff ks []). exists l'. auto.
Qed.

(** The manual mentions only known words. *)
Definition word_ok (k : kind) : bool := match k with W w => str_in w known | _ => true end.
Lemma manual_words : forallb (fun '(_, (_, ks)) => forallb word_ok ks) manual = true.
Proof. vm_compute. reflexivity. Qed.
Lemma kmatch_nf : forall k t, word_ok k = true -> kmatch k (nf t) = kmatch k t.
Proof.
  intros [w|f| |] t K; cbn [kmatch word_ok] in *.
  - apply nf_word. exact K.
  - rewrite nf_list by reflexivity. reflexivity.
  - unfold page. rewrite nf_page, nf_word by reflexivity. reflexivity.
  - unfold page. rewrite nf_page, nf_list, nf_word by reflexivity. reflexivity.
Qed.
Lemma kwants_nf : forall ks ops i, forallb word_ok ks = true -> kwants ks (map nf ops) i = kwants ks ops i.
Proof.
  induction ks as [|k ks IH]; intros [|t ops] i K; try reflexivity. cbn [map kwants forallb] in *.
  apply andb_prop in K. destruct K as [K1 K2]. rewrite kmatch_nf, IH by assumption. reflexivity.
Qed.
Lemma forms_ok : forall m pre ks, In (pre, ks) (forms_of m) -> forallb word_ok ks = true.
Proof.
  intros m pre ks I. unfold forms_of in I. apply in_flat_map in I. destruct I as ((n & f) & I & J).
  destruct (str_eqb n m); [|destruct J]. destruct J as [->|[]].
  pose proof manual_words as W. rewrite forallb_forall in W. apply W in I. exact I.
Qed.
Lemma spec_sel_nf : forall m ops, spec_sel (forms_of m) (map nf ops) = spec_sel (forms_of m) ops.
Proof.
  intros m ops. unfold spec_sel.
  assert (H : forall fs : list (bytes * list kind), (forall pre ks, In (pre, ks) fs -> forallb word_ok ks = true) ->
    flat_map (fun '(pre, ks) => match kwants ks (map nf ops) 0 with Some l => [(pre, l)] | None => [] end) fs =
    flat_map (fun '(pre, ks) => match kwants ks ops 0 with Some l => [(pre, l)] | None => [] end) fs).
  { induction fs as [|[pre ks] fs IH]; intros H; [reflexivity|]. cbn [flat_map].
    rewrite kwants_nf by (eapply H; left; reflexivity). rewrite IH; [reflexivity|]. intros; eapply H; right; eauto. }
  apply H. apply forms_ok.
Qed.
Lemma kwants_cover : forall ks ops i l, kwants ks ops i = Some l -> Forall2 (fun k t => kmatch k t = true) ks ops.
Proof.
  induction ks as [|k ks IH]; intros [|t ops] i l H; try discriminate; constructor; cbn [kwants] in H.
  - destruct (kmatch k t); [reflexivity|discriminate].
  - destruct (kmatch k t); [|discriminate]. destruct (kwants ks ops (S i)) eqn:E; [|discriminate]. eapply IH; eauto.
Qed.

(** ** The model as a function *)

Definition choice : Type := list (list pattern) * (list str -> option want).
Definition static_sel (k : Z) : choice := ([[]], fun ops => match ops with [] => Some ([k], []) | _ => None end).
Definition build_sel (c r : bool) (kw : list (str * Z)) : choice :=
  (patterns_of (lr_branches c r), sel [] (lr_branches c r) kw).
Definition cb_sel (kw : list (str * Z)) : choice := (patterns_of cb_branches, sel [0xCB] cb_branches kw).
Definition ldh_store : list (list pattern) := brackets (fun o c => [o; Val; c; PStr #"A"]).
Definition ldh_load : list (list pattern) := brackets (fun o c => [PStr #"A"; o; Val; c]).
Definition ldh_sel : choice :=
  (ldh_store ++ ldh_load, fun ops =>
     if existsb (imatch (([] : str) :: ops) 1) ldh_store then Some ([0xE0], [(Byte, 1, 0)%nat])
     else if existsb (imatch (([] : str) :: ops) 1) ldh_load then Some ([0xF0], [(Byte, 2, 0)%nat]) else None).
Definition ret_sel (kw : list (str * Z)) : choice :=
  ([] :: patterns_of (lr_branches true false), fun ops =>
     match ops with [] => Some ([0xC9], []) | _ => sel [] (lr_branches true false) kw ops end).
Definition stop_sel : choice :=
  ([[]; [PStr #"0"]], fun ops =>
     if Nat.eqb (length ops) 0 || imatch (([] : str) :: ops) 1 [PStr #"0"] then Some ([0x10; 0], []) else None).
Definition rst_sel : choice :=
  ([[PTuple (map fst rst_vectors)]], fun ops =>
     match ops with [t] => option_map (fun v => ([v], [])) (dget str_eqb rst_vectors (upper t)) | _ => None end).

Definition lr_sels : list (str * choice) :=
  map (fun '(n, k) => (n, static_sel k)) lr_static ++
  map (fun '(n, (c, r, k)) => (n, build_sel c r k)) lr_table ++
  map (fun '(n, k) => (n, cb_sel k)) lr_cb_table ++
  [ (#"LDH", ldh_sel); (#"LD", build_sel false false lr_ld_args); (#"RET", ret_sel lr_ret_args);
    (#"STOP", stop_sel); (#"RST", rst_sel) ].

Definition run (h : opcode) (t0 : str) (ops : list str) (s : st) : st * res (option bytes) :=
  match h with
  | OStatic b => (s, Ok (match ops with [] => Some b | _ => None end))
  | OFun f => f (t0 :: ops) s
  end.
Lemma run_result : forall c key h t0 ops s s', dget str_eqb (c_instructions c) key = Some h ->
  opcode_assemble c key (t0 :: ops) s = (s', Ok tt) <->
  exists b s1, run h t0 ops s = (s1, Ok (Some b)) /\ emitted s1 b s'.
Proof.
  intros c key [b|f] t0 ops s s' H.
  - rewrite (static_result _ _ _ _ _ _ _ H). cbn [run]. split.
    + intros [-> E]. eauto.
    + intros (b' & s1 & R & E). destruct ops; [|discriminate]. injection R as <- <-. auto.
  - rewrite (fun_result _ _ _ _ _ _ H). cbn [run]. destruct (f (t0 :: ops) s) as [s1 r]. cbn [fst snd]. split.
    + intros (b & -> & E). eauto.
    + intros (b & s2 & R & E). injection R as <- ->. eauto.
Qed.

Definition stacked (ops : list str) : Prop :=
  exists a t rest, ops = a :: t :: rest /\ (starts_with #"SP+" t || starts_with #"SP-" t = true).
Definition implements (m : str) (h : opcode) (f : choice) : Prop :=
  (forall t0 ops s s1 b, 0 <= pc s -> (m = #"LD" -> ~ stacked ops) ->
     run h t0 ops s = (s1, Ok (Some b)) <->
     exists w vs ds, snd f ops = Some (w, vs) /\ laid_out lr_p s w [] (picked ops vs) b ds /\ s1 = referring s ds) /\
  (forall ops, snd f (map nf ops) = snd f ops) /\
  (forall ops w, snd f ops = Some w -> exists ps, In ps (fst f) /\ Forall2 (fun p t => imatch1 p t = true) ps ops).

Lemma plain_out : forall s s1 (b w : bytes) ops, b = w /\ s1 = s <->
  exists w0 vs ds, Some (w, []) = Some (w0, vs) /\ laid_out lr_p s w0 [] (picked ops vs) b ds /\ s1 = referring s ds.
Proof.
  intros. split.
  - intros [-> ->]. exists w, [], []. split; [reflexivity|]. split; [|reflexivity].
    replace w with (w ++ []) at 2 by apply app_nil_r. apply lo_none.
  - intros (w0 & vs & ds & E & L & ->). injection E as <- <-. inversion L; subst. rewrite app_nil_r. auto.
Qed.

Lemma static_implements : forall m k, implements m (OStatic [k]) (static_sel k).
Proof.
  intros m k. split; [|split].
  - intros t0 ops s s1 b _ _. cbn [run static_sel snd]. destruct ops as [|x ops].
    + rewrite <- plain_out. split; [intros E; injection E as <- <-; auto|intros [-> ->]; reflexivity].
    + split; [discriminate|]. intros (w & vs & ds & E & _). discriminate.
  - intros [|x ops]; reflexivity.
  - intros [|x ops] w E; [|discriminate]. exists []. split; [left; reflexivity|constructor].
Qed.

Lemma branches_shape : forall c r, forallb (fun b => forallb piece_pos (pieces_of b) && op_ok b) (lr_branches c r) = true.
Proof. intros [] []; vm_compute; reflexivity. Qed.
Lemma build_implements : forall m c r kw, table_bytes kw = true -> implements m (OFun (build_opcode c r kw)) (build_sel c r kw).
Proof.
  intros m c r kw T. split; [|split].
  - intros t0 ops s s1 b P _. cbn [run build_sel snd]. unfold build_opcode. apply build_result; auto. apply branches_shape.
  - intros ops. cbn [build_sel snd]. apply sel_nf. apply branches_good.
  - intros ops w E. eapply sel_cover. exact E.
Qed.
Lemma ld_implements : forall kw, table_bytes kw = true -> implements #"LD" (OFun (lr_ld kw)) (build_sel false false kw).
Proof.
  intros kw T. destruct (build_implements #"LD" false false kw T) as (B1 & B2 & B3). split; [|split; assumption].
  intros t0 ops s s1 b P N. rewrite <- B1 by assumption. cbn [run].
  assert (E : lr_ld kw (t0 :: ops) s = build_opcode false false kw (t0 :: ops) s); [|rewrite E; apply iff_refl].
  unfold lr_ld. destruct ops as [|a [|t rest]]; try reflexivity.
  assert (X : starts_with #"SP+" t || starts_with #"SP-" t = false).
  { destruct (starts_with #"SP+" t || starts_with #"SP-" t) eqn:Y; [|reflexivity]. exfalso. apply N; [reflexivity|]. exists a, t, rest. auto. }
  apply orb_false_elim in X. destruct X as [-> ->]. reflexivity.
Qed.
Lemma cb_implements : forall m kw, table_bytes kw = true -> forallb (fun '(k, _) => bit_key k) kw = true ->
  implements m (OFun (build_cb_opcode kw)) (cb_sel kw).
Proof.
  intros m kw T K. split; [|split].
  - intros t0 ops s s1 b P _. cbn [run cb_sel snd]. unfold build_cb_opcode. apply build_result; auto.
  - intros ops. cbn [cb_sel snd]. apply sel_cb_nf. exact K.
  - intros ops w E. eapply sel_cover. exact E.
Qed.
Lemma ret_implements : forall kw, table_bytes kw = true -> implements #"RET" (OFun (lr_ret kw)) (ret_sel kw).
Proof.
  intros kw T. destruct (build_implements #"RET" true false kw T) as (B1 & B2 & B3). split; [|split].
  - intros t0 [|x ops] s s1 b P N.
    + cbn [run ret_sel snd lr_ret length Nat.eqb ret]. rewrite <- plain_out.
      split; [intros E; injection E as <- <-; auto|intros [-> ->]; reflexivity].
    + cbn [ret_sel snd]. rewrite <- (B1 t0 (x :: ops) s s1 b P N). reflexivity.
  - intros [|x ops]; [reflexivity|]. cbn [ret_sel snd map]. exact (B2 (x :: ops)).
  - intros [|x ops] w E.
    + exists []. split; [left; reflexivity|constructor].
    + apply B3 in E. destruct E as (ps & I & F). exists ps. split; [right; exact I|exact F].
Qed.
Lemma exists_nf : forall pss ops, Forall (Forall good_pat) pss ->
  existsb (imatch (([] : str) :: map nf ops) 1) pss = existsb (imatch (([] : str) :: ops) 1) pss.
Proof. intros. apply existsb_ext. intros ps I. apply nf_match. rewrite Forall_forall in H. auto. Qed.
Lemma exists_cover : forall pss ops, existsb (imatch (([] : str) :: ops) 1) pss = true ->
  exists ps, In ps pss /\ Forall2 (fun p t => imatch1 p t = true) ps ops.
Proof.
  intros pss ops H. apply existsb_exists in H. destruct H as (ps & I & M). apply (proj1 (imatch_cons _ _ _)) in M. eauto.
Qed.
Lemma stop_implements : implements #"STOP" (OFun lr_stop) stop_sel.
Proof.
  split; [|split].
  - intros t0 ops s s1 b P N. cbn [run stop_sel snd]. unfold lr_stop. cbn [length Nat.eqb].
    change (imatch (t0 :: ops) 1 [PStr #"0"]) with (imatch (([] : str) :: ops) 1 [PStr #"0"]).
    destruct (Nat.eqb (length ops) 0 || imatch (([] : str) :: ops) 1 [PStr #"0"]).
    + rewrite <- plain_out. split; [intros E; injection E as <- <-; auto|intros [-> ->]; reflexivity].
    + split; [discriminate|]. intros (w & vs & ds & E & _). discriminate.
  - intros ops. cbn [stop_sel snd]. rewrite map_length. rewrite (nf_match [] [] [PStr #"0"] ops); [reflexivity|].
    constructor; [constructor; reflexivity|constructor].
  - intros ops w E. cbn [stop_sel snd fst] in *.
    destruct ops as [|x ops].
    + exists []. split; [left; reflexivity|constructor].
    + cbn [length Nat.eqb orb] in E. destruct (imatch (([] : str) :: x :: ops) 1 [PStr #"0"]) eqn:M; [|discriminate].
      apply (proj1 (imatch_cons _ _ _)) in M. eexists. split; [right; left; reflexivity|exact M].
Qed.
Lemma vector_match : forall t, imatch1 (PTuple (map fst rst_vectors)) t = true <-> exists v, dget str_eqb rst_vectors (upper t) = Some v /\ 0 <= v < 256.
Proof.
  intros t. cbn [imatch1]. change (map fst rst_vectors) with (map upper (map fst rst_vectors)). rewrite existsb_map.
  assert (E : existsb (fun x => str_eqb (upper t) (upper (upper x))) (map fst rst_vectors) = str_in (upper t) (map fst rst_vectors)) by reflexivity.
  rewrite E, str_in_In. split.
  - intros I. cbn [rst_vectors map fst In] in I.
    repeat (destruct I as [<-|I]; [eexists; split; [reflexivity|lia]|]). destruct I.
  - intros (v & D & _). eapply dget_name. exact D.
Qed.
Lemma rst_implements : implements #"RST" (OFun lr_rst) rst_sel.
Proof.
  split; [|split].
  - intros t0 ops s s1 b P N. cbn [run rst_sel snd]. unfold lr_rst.
    destruct ops as [|t [|x ops]].
    + split; [discriminate|]. intros (w & vs & ds & E & _). discriminate.
    + replace (imatch (t0 :: [t]) 1 [PTuple (map fst rst_vectors)]) with (imatch1 (PTuple (map fst rst_vectors)) t).
      2:{ unfold imatch. cbn [length plus Nat.eqb skipn match_all andb]. rewrite andb_true_r. reflexivity. }
      destruct (imatch1 (PTuple (map fst rst_vectors)) t) eqn:M.
      * apply (proj1 (vector_match t)) in M. destruct M as (v & D & R). rewrite D. cbn [option_map]. rewrite <- plain_out.
        unfold bind, tok_at. cbn [nth_error ret]. unfold lr_kwarg. rewrite D. unfold ret, lift. rewrite pack_byte1 by exact R.
        split; [intros E; injection E as <- <-; auto|intros [-> ->]; reflexivity].
      * split; [discriminate|]. intros (w & vs & ds & E & _).
        destruct (dget str_eqb rst_vectors (upper t)) as [v|] eqn:D; [|discriminate].
        assert (X : imatch1 (PTuple (map fst rst_vectors)) t = true); [|congruence].
        apply vector_match. exists v. split; [exact D|]. apply (dget_In str_eqb str_eqb_eq) in D.
        cbn [rst_vectors In] in D. repeat (destruct D as [D|D]; [injection D as _ <-; lia|]). destruct D.
    + replace (imatch (t0 :: t :: x :: ops) 1 [PTuple (map fst rst_vectors)]) with false by (unfold imatch; reflexivity).
      split; [discriminate|]. intros (w & vs & ds & E & _). discriminate.
  - intros [|t [|x ops]]; try reflexivity. cbn [map rst_sel snd].
    destruct (str_in (upper t) known) eqn:K; [rewrite nf_known by exact K; reflexivity|].
    assert (Z : forall u, str_in u known = false -> dget str_eqb rst_vectors u = None).
    { intros u U. destruct (dget str_eqb rst_vectors u) eqn:D; [|reflexivity]. apply dget_name in D.
      assert (str_in u known = true); [|congruence]. apply str_in_In. unfold known. do 3 (apply in_or_app; right).
      apply in_or_app. left. exact D. }
    rewrite (Z _ K), (Z _ (nf_unknown _ K)). reflexivity.
  - intros [|t [|x ops]] w E; try discriminate. cbn [rst_sel snd] in E.
    destruct (dget str_eqb rst_vectors (upper t)) as [v|] eqn:D; [|discriminate]. eexists. split; [left; reflexivity|].
    constructor; [|constructor]. apply vector_match. exists v. split; [exact D|]. apply (dget_In str_eqb str_eqb_eq) in D.
    cbn [rst_vectors In] in D. repeat (destruct D as [D|D]; [injection D as _ <-; lia|]). destruct D.
Qed.
Lemma ldh_implements : implements #"LDH" (OFun lr_ldh_op) ldh_sel.
Proof.
  assert (ONE : forall pss k (i : nat) (t0 : str) ops s s1 b, 0 <= pc s -> 0 <= k < 256 ->
    (forall ps, In ps pss -> (i < length ps)%nat) ->
    existsb (imatch (([] : str) :: ops) 1) pss = true ->
    (let! t := tok_at (t0 :: ops) (S i) in let! a8 := lr_operand D8 t in
     let! b := lift (pack_byte [Some k]) in ret (Some (b ++ a8))) s = (s1, Ok (Some b)) <->
    exists w vs ds, Some ([k], [(Byte, i, 0%nat)]) = Some (w, vs) /\ laid_out lr_p s w [] (picked ops vs) b ds /\ s1 = referring s ds).
  { intros pss k i t0 ops s s1 b P R L M. apply exists_cover in M. destruct M as (ps & I & F).
    assert (LT : (i < length ops)%nat).
    { apply L in I. assert (length ps = length ops) by (clear -F; induction F; cbn; auto). lia. }
    assert (NE : nth_error ops i = Some (nth i ops [])) by (apply nth_error_nth'; exact LT).
    unfold bind at 1. unfold tok_at. cbn [nth_error]. rewrite NE. unfold ret at 1. unfold bind at 1.
    destruct (lr_operand D8 (nth i ops []) s) as [s2 [bo|e]] eqn:O.
    - unfold bind, lift, ret. rewrite pack_byte1 by exact R. split.
      + intros E. injection E as <- <-. apply operand_result in O; [|exact P]. destruct O as (ds & S & ->).
        eexists _, _, ds. split; [reflexivity|]. split; [|reflexivity]. cbn [picked map skipn].
        replace bo with (bo ++ []) by apply app_nil_r. apply (lo_one lr_p s [k] []). exact S.
      + intros (w & vs & ds & E & LO & ->). injection E as <- <-. cbn [picked map skipn] in LO. inversion LO; subst.
        assert (O2 : lr_operand D8 (nth i ops []) s = (referring s ds, Ok b0)).
        { apply operand_result; [exact P|]. eexists. split; [|reflexivity]. match goal with X : stored _ _ _ _ _ _ _ |- _ => exact X end. }
        rewrite O2 in O. injection O as <- <-. rewrite app_nil_r. reflexivity.
    - split; [discriminate|]. intros (w & vs & ds & E & LO & ->). injection E as <- <-. cbn [picked map skipn] in LO. inversion LO; subst.
      assert (O2 : lr_operand D8 (nth i ops []) s = (referring s ds, Ok b0)).
      { apply operand_result; [exact P|]. eexists. split; [|reflexivity]. match goal with X : stored _ _ _ _ _ _ _ |- _ => exact X end. }
      congruence. }
  split; [|split].
  - intros t0 ops s s1 b P N. cbn [run ldh_sel snd]. unfold lr_ldh_op.
    change (existsb (imatch (t0 :: ops) 1) (brackets (fun o c => [o; Val; c; PStr #"A"]))) with (existsb (imatch (([] : str) :: ops) 1) ldh_store).
    change (existsb (imatch (t0 :: ops) 1) (brackets (fun o c => [PStr #"A"; o; Val; c]))) with (existsb (imatch (([] : str) :: ops) 1) ldh_load).
    destruct (existsb (imatch (([] : str) :: ops) 1) ldh_store) eqn:M1.
    { apply (ONE ldh_store); auto; [lia|]. intros ps [<-|[<-|[]]]; cbn; lia. }
    destruct (existsb (imatch (([] : str) :: ops) 1) ldh_load) eqn:M2.
    { apply (ONE ldh_load); auto; [lia|]. intros ps [<-|[<-|[]]]; cbn; lia. }
    split; [discriminate|]. intros (w & vs & ds & E & _). discriminate.
  - intros ops. cbn [ldh_sel snd]. rewrite !exists_nf; [reflexivity| |]; good_pats.
  - intros ops w E. cbn [ldh_sel snd fst] in *. destruct (existsb (imatch (([] : str) :: ops) 1) ldh_store) eqn:M1.
    + apply exists_cover in M1. destruct M1 as (ps & I & F). exists ps. split; [apply in_or_app; left; exact I|exact F].
    + destruct (existsb (imatch (([] : str) :: ops) 1) ldh_load) eqn:M2; [|discriminate].
      apply exists_cover in M2. destruct M2 as (ps & I & F). exists ps. split; [apply in_or_app; right; exact I|exact F].
Qed.

Definition matched (a : str * opcode) (b : str * choice) : Prop := fst a = fst b /\ implements (fst a) (snd a) (snd b).
Lemma Forall2_map2 : forall A B C (R : B -> C -> Prop) (f : A -> B) (g : A -> C) l, (forall x, In x l -> R (f x) (g x)) ->
  Forall2 R (map f l) (map g l).
Proof. induction l as [|a l IH]; intros H; constructor; [apply H; left; auto|apply IH; intros; apply H; right; auto]. Qed.
Lemma lr_tables : forallb (fun '(_, (_, _, k)) => table_bytes k) lr_table &&
  forallb (fun '(_, k) => table_bytes k && forallb (fun '(k, _) => bit_key k) k) lr_cb_table = true.
Proof. vm_compute. reflexivity. Qed.
Lemma lr_matched : Forall2 matched lr_ops lr_sels.
Proof.
  pose proof lr_tables as T. apply andb_prop in T. destruct T as [T1 T2]. rewrite forallb_forall in T1, T2.
  unfold lr_ops, lr_sels. apply Forall2_app; [|apply Forall2_app; [|apply Forall2_app]].
  - apply Forall2_map2. intros [n k] _. split; [reflexivity|apply static_implements].
  - apply Forall2_map2. intros [n [[c r] k]] I. split; [reflexivity|]. apply build_implements. exact (T1 _ I).
  - apply Forall2_map2. intros [n k] I. split; [reflexivity|]. apply T2 in I. apply andb_prop in I. apply cb_implements; tauto.
  - constructor; [split; [reflexivity|apply ldh_implements]|]. constructor; [split; [reflexivity|apply ld_implements; reflexivity]|].
    constructor; [split; [reflexivity|apply ret_implements; reflexivity]|]. constructor; [split; [reflexivity|apply stop_implements]|].
    constructor; [split; [reflexivity|apply rst_implements]|]. constructor.
Qed.
Lemma matched_get : forall ops sels m, Forall2 matched ops sels ->
  match dget str_eqb ops m with
  | Some h => exists f, dget str_eqb sels m = Some f /\ implements m h f
  | None => dget str_eqb sels m = None
  end.
Proof.
  intros ops sels m F. induction F as [|[n h] [n' f] ops sels [E I] F IH]; [reflexivity|]. cbn [fst snd] in *. subst n'.
  cbn [dget]. destruct (str_eqb m n) eqn:E; [|exact IH]. apply str_eqb_eq in E. subst n. exists f. auto.
Qed.

(** ** The comparison *)

Definition odd_words : list str := [#"$"; #"F"; #"0"; #"+"].
Definition odd_b (m : str) (ops : list str) : bool :=
  match ops with
  | [o; t; c; a] =>
      str_eqb m #"LD" && (str_in (upper t) odd_words && str_eqb (upper a) #"A" ||
                          str_eqb (upper o) #"A" && str_eqb (upper c) #"$FF00+C") ||
      str_in m (map snd bit_ops) && str_in (upper c) [#"H"; #"L"]
  | [o; t; c] => str_in m (map snd shifts) && str_in (upper t) [#"H"; #"L"]
  | _ => false
  end.
Lemma odd_sound : forall m ops, odd_b m (map nf ops) = true -> odd m ops.
Proof.
  intros m ops H. destruct ops as [|o [|t [|c [|a [|x ops]]]]]; try discriminate; cbn [map odd_b] in H.
  - rewrite nf_list in H by reflexivity. apply andb_prop in H. destruct H as [H1 H2]. apply str_in_In in H1, H2.
    apply odd_shift; assumption.
  - rewrite !nf_list in H by reflexivity. rewrite !nf_word in H by reflexivity. apply orb_prop in H. destruct H as [H|H].
    + apply andb_prop in H. destruct H as [H1 H2]. apply str_eqb_eq in H1. subst m. apply orb_prop in H2.
      destruct H2 as [H2|H2]; apply andb_prop in H2; destruct H2 as [H2 H3].
      * apply str_in_In in H2. apply str_eqb_eq in H3. apply odd_store; assumption.
      * apply str_eqb_eq in H2, H3. apply odd_load; assumption.
    + apply andb_prop in H. destruct H as [H1 H2]. apply str_in_In in H1, H2. apply odd_bit; assumption.
Qed.

Definition field_eqb (a b : field) : bool :=
  match a, b with Byte, Byte => true | SpecByte.Word, SpecByte.Word => true | Disp, Disp => true | Index, Index => true | _, _ => false end.
Fixpoint list_eqb {A} (eq : A -> A -> bool) (a b : list A) : bool :=
  match a, b with [], [] => true | x :: a', y :: b' => eq x y && list_eqb eq a' b' | _, _ => false end.
Definition op_eqb (a b : field * nat * nat) : bool :=
  let '(f, i, d) := a in let '(g, j, e) := b in field_eqb f g && Nat.eqb i j && Nat.eqb d e.
Definition want_eqb (a b : want) : bool := list_eqb Z.eqb (fst a) (fst b) && list_eqb op_eqb (snd a) (snd b).
Lemma list_eqb_eq : forall A (eq : A -> A -> bool), (forall x y, eq x y = true -> x = y) ->
  forall a b, list_eqb eq a b = true -> a = b.
Proof.
  intros A eq E. induction a as [|x a IH]; intros [|y b] H; try discriminate; [reflexivity|]. cbn [list_eqb] in H.
  apply andb_prop in H. destruct H as [H1 H2]. apply E in H1. apply IH in H2. congruence.
Qed.
Lemma want_eqb_eq : forall a b, want_eqb a b = true -> a = b.
Proof.
  intros [a1 a2] [b1 b2] H. unfold want_eqb in H. cbn [fst snd] in H. apply andb_prop in H. destruct H as [H1 H2].
  apply list_eqb_eq in H1; [|intros x y X; apply Z.eqb_eq; exact X]. apply list_eqb_eq in H2; [congruence|].
  intros [[f i] d] [[g j] e] X. cbn [op_eqb] in X. apply andb_prop in X. destruct X as [X X3]. apply andb_prop in X. destruct X as [X1 X2].
  apply Nat.eqb_eq in X2, X3. subst. destruct f, g; try discriminate; reflexivity.
Qed.

Definition agree (m : str) (fs : list (bytes * list kind)) (f : list str -> option want) (ops : list str) : bool :=
  odd_b m ops ||
  match f ops with
  | None => match spec_sel fs ops with [] => true | _ => false end
  | Some w => match spec_sel fs ops with [] => false | l => forallb (want_eqb w) l end
  end.
Fixpoint product (ps : list (str -> bool)) : list (list str) :=
  match ps with
  | [] => [[]]
  | p :: ps' => let rest := product ps' in flat_map (fun t => map (cons t) rest) (filter p reps)
  end.
Lemma product_all : forall ps ops, Forall2 (fun (p : str -> bool) t => p t = true) ps ops -> Forall (fun t => In t reps) ops ->
  In ops (product ps).
Proof.
  intros ps ops F. induction F as [|p t ps ops H F IH]; intros R; [left; reflexivity|]. inversion R; subst.
  cbn [product]. apply in_flat_map. exists t. split; [apply filter_In; auto|]. apply in_map. apply IH. assumption.
Qed.
Definition all_agree (sels : list (str * choice)) : bool :=
  forallb (fun '(m, (pss, f)) =>
    str_eqb m #"BRA" ||
    let fs := forms_of m in
    forallb (fun ps => forallb (agree m fs f) (product (map imatch1 ps))) pss &&
    forallb (fun '(_, ks) => forallb (agree m fs f) (product (map kmatch ks))) fs) sels.
Lemma all_agree_true : all_agree lr_sels = true.
Proof. vm_cast_no_check (eq_refl true). Qed.

Lemma manual_names : forallb (fun '(m, _) => match dget str_eqb lr_sels m with Some _ => true | None => false end) manual = true.
Proof. vm_compute. reflexivity. Qed.
Lemma no_forms : forall m, dget str_eqb lr_sels m = None -> forms_of m = [].
Proof.
  intros m N. unfold forms_of. pose proof manual_names as MN. revert MN. generalize manual. intros l.
  induction l as [|[n f] l IH]; intros H; [reflexivity|]. cbn [forallb flat_map] in *. apply andb_prop in H. destruct H as [H1 H2].
  rewrite (IH H2), app_nil_r. destruct (str_eqb n m) eqn:E; [|reflexivity]. apply str_eqb_eq in E. subst n. rewrite N in H1. discriminate.
Qed.

Lemma compare : forall sels m pss f ops, all_agree sels = true -> m <> #"BRA" -> dget str_eqb sels m = Some (pss, f) ->
  (forall ops, f (map nf ops) = f ops) ->
  (forall ops w, f ops = Some w -> exists ps, In ps pss /\ Forall2 (fun p t => imatch1 p t = true) ps ops) ->
  ~ odd m ops -> forall w, f ops = Some w <-> In w (spec_sel (forms_of m) ops).
Proof.
  intros sels m pss f ops A NB D NF CV O w. unfold all_agree in A. rewrite forallb_forall in A.
  apply (dget_In str_eqb str_eqb_eq) in D. apply A in D. clear A.
  apply orb_prop in D. destruct D as [D|D]; [apply str_eqb_eq in D; congruence|].
  cbv zeta in D. apply andb_prop in D. destruct D as [D1 D2]. rewrite forallb_forall in D1, D2.
  rewrite <- NF, <- spec_sel_nf.
  assert (R : Forall (fun t => In t reps) (map nf ops)) by (apply Forall_forall; intros t I; apply in_map_iff in I; destruct I as (x & <- & _); apply nf_reps).
  assert (AG : (exists w, f (map nf ops) = Some w) \/ (exists w, In w (spec_sel (forms_of m) (map nf ops))) ->
               agree m (forms_of m) f (map nf ops) = true).
  { intros [[x X]|[x X]].
    - apply CV in X. destruct X as (ps & I & F). apply D1 in I. rewrite forallb_forall in I. apply I. apply product_all; [|exact R].
      clear -F. induction F; constructor; auto.
    - unfold spec_sel in X. apply in_flat_map in X. destruct X as ((pre & ks) & I & X).
      destruct (kwants ks (map nf ops) 0) as [l|] eqn:K; [|destruct X]. apply kwants_cover in K.
      apply D2 in I. rewrite forallb_forall in I. apply I. apply product_all; [|exact R].
      clear -K. induction K; constructor; auto. }
  assert (OB : odd_b m (map nf ops) = false).
  { destruct (odd_b m (map nf ops)) eqn:E; [|reflexivity]. apply odd_sound in E. tauto. }
  unfold agree in AG. rewrite OB in AG. cbn [orb] in AG. split.
  - intros E. rewrite E in AG. specialize (AG (or_introl (ex_intro _ w eq_refl))).
    destruct (spec_sel (forms_of m) (map nf ops)) as [|x l]; [discriminate|].
    cbn [forallb] in AG. apply andb_prop in AG. destruct AG as [AG _]. apply want_eqb_eq in AG. left. auto.
  - intros I. specialize (AG (or_intror (ex_intro _ w I))). destruct (f (map nf ops)) as [x|].
    + destruct (spec_sel (forms_of m) (map nf ops)) as [|y l]; [destruct I|]. rewrite forallb_forall in AG.
      apply AG in I. apply want_eqb_eq in I. congruence.
    + destruct (spec_sel (forms_of m) (map nf ops)) as [|y l]; [destruct I|discriminate].
Qed.

Lemma lr_instructions : forall e, c_instructions (lr35902 e) = lr_ops.
Proof. intros e. unfold lr35902, mk_cfg. cbn [c_instructions]. apply register_all_id; vm_compute; reflexivity. Qed.

(** The whole LR35902: what is accepted, and the exact effect. *)
Theorem lr_encoding : forall e s words t0 ops fuel l s', opcode_stmt (lr35902 e) s words t0 ops -> 0 <= pc s ->
  upper t0 <> #"BRA" -> ~ odd (upper t0) ops ->
  exec (lr35902 e) fuel [Stmt KInstruction words l] s = (s', Ok tt) <->
  exists b ds, encodes s (upper t0) ops b ds /\ emitted (referring s ds) b s'.
Proof.
  intros e s words t0 ops fuel l s' OS P NB O. rewrite (exec_opcode _ _ _ _ _ _ _ OS).
  change (op_key (lr35902 e) t0) with (upper t0). set (m := upper t0) in *.
  pose proof (matched_get lr_ops lr_sels m lr_matched) as MG.
  destruct (dget str_eqb lr_ops m) as [h|] eqn:D.
  - destruct MG as ((pss & f) & F & I1 & I2 & I3). cbn [fst snd] in *.
    rewrite (run_result _ _ h) by (rewrite lr_instructions; exact D).
    assert (ST : m = #"LD" -> ~ stacked ops).
    { intros E (a & t & rest & -> & X). apply O. rewrite E. apply orb_prop in X.
      destruct X as [X|X]; apply starts_with_iff in X; destruct X as [x ->]; constructor. }
    pose proof (compare lr_sels m pss f ops all_agree_true NB F I2 I3 O) as CMP. split.
    + intros (b & s1 & R & E). apply (I1 t0 ops s s1 b P ST) in R. destruct R as (w & vs & ds & S & L & ->).
      exists b, ds. split; [|exact E]. apply encodes_iff. exists w, vs. split; [apply CMP; exact S|exact L].
    + intros (b & ds & EN & E). apply encodes_iff in EN. destruct EN as (pre & vs & I & L). exists b, (referring s ds).
      split; [|exact E]. apply (I1 t0 ops s _ b P ST). exists pre, vs, ds. split; [apply CMP; exact I|]. split; [exact L|reflexivity].
  - rewrite unknown_result by (rewrite lr_instructions; exact D). split; [tauto|].
    intros (b & ds & EN & E). apply encodes_iff in EN. destruct EN as (pre & vs & I & L).
    rewrite (no_forms m MG) in I. destruct I.
Qed.
