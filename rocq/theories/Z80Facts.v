(** The Z80 model encodes the instructions of its manual. *)
From Coq Require Import Lia.
From Verif Require Import Py PyFacts Utils Tokenizer State Assembler Instr Z80.
From Verif Require Import SpecUtils SpecSubst SpecExec SpecCpu SpecByte SpecZ80 UtilsFacts CpuFacts MosFacts WordFacts LrFacts LrEnc.
From Verif Require Import SpecZ80.
Local Open Scope Z_scope.

(** ** Tokens *)

Definition idx_x (r t : str) : bool := starts_with (r ++ #"+") (upper t) || starts_with (r ++ #"-") (upper t).
Definition idx (t : str) : bool := idx_x #"IX" t || idx_x #"IY" t.
Definition drop_of (t : str) : nat := if Ascii.eqb (nth 2 t " "%char) "-" then 2 else 3.

Lemma first3 : forall (r t : str) c, length r = 2%nat -> starts_with (r ++ [c]) (upper t) = true <-> upper (firstn 3 t) = r ++ [c].
Proof.
  intros r t c L. destruct r as [|a [|b [|d r]]]; try discriminate. cbn [app]. split.
  - intros H. apply starts_with_iff in H. destruct H as [x H]. destruct t as [|t1 [|t2 [|t3 t]]]; try discriminate.
    cbn [upper map app firstn] in *. injection H as -> -> -> _. reflexivity.
  - intros H. apply starts_with_iff. destruct t as [|t1 [|t2 [|t3 t]]]; try discriminate. cbn [firstn upper map] in H.
    exists (upper t). cbn [upper map app]. injection H as -> -> ->. reflexivity.
Qed.
Lemma third : forall (t : str) a b c, upper (firstn 3 t) = [a; b; c] -> upper_chr (nth 2 t " "%char) = c /\ (2 < length t)%nat.
Proof.
  intros t a b c H. destruct t as [|t1 [|t2 [|t3 t]]]; try discriminate. cbn [firstn upper map] in H. cbn [nth length].
  injection H as _ _ ->. split; [reflexivity|lia].
Qed.
Lemma upper_plus : forall c, upper_chr c = "+"%char -> c = "+"%char.
Proof. intros [[] [] [] [] [] [] [] []] H; (reflexivity || discriminate). Qed.
Lemma upper_minus : forall c, upper_chr c = "-"%char -> c = "-"%char.
Proof. intros [[] [] [] [] [] [] [] []] H; (reflexivity || discriminate). Qed.
Lemma upper_blank : forall c, upper_chr c = " "%char -> c = " "%char.
Proof. intros [[] [] [] [] [] [] [] []] H; (reflexivity || discriminate). Qed.

Lemma idx_x_iff : forall r t x, length r = 2%nat -> indexed r t x <-> idx_x r t = true /\ x = skipn (drop_of t) t.
Proof.
  intros r t x L. unfold idx_x, drop_of. rewrite orb_true_iff.
  pose proof (first3 r t "+"%char L) as P1. pose proof (first3 r t "-"%char L) as P2.
  change (starts_with (r ++ #"+") (upper t) = true <-> upper (firstn 3 t) = r ++ #"+") in P1.
  change (starts_with (r ++ #"-") (upper t) = true <-> upper (firstn 3 t) = r ++ #"-") in P2.
  rewrite P1, P2. clear P1 P2.
  destruct r as [|a [|b [|d r]]]; try discriminate. cbn [app]. split.
  - intros H. inversion H; subst; match goal with Y : upper (firstn 3 t) = _ |- _ => cbn [app] in Y; destruct (third _ _ _ _ Y) as [C _] end.
    + apply upper_plus in C. rewrite C. split; [auto|reflexivity].
    + apply upper_minus in C. rewrite C. split; [auto|reflexivity].
  - intros [[Y|Y] ->]; destruct (third _ _ _ _ Y) as [C _].
    + apply upper_plus in C. rewrite C. apply i_plus; [exact Y|reflexivity].
    + apply upper_minus in C. rewrite C. apply i_minus; [exact Y|reflexivity].
Qed.
Lemma idx_iff : forall t, index_token t <-> idx t = true.
Proof.
  intros t. unfold index_token, idx. rewrite orb_true_iff. split.
  - intros (r & x & [<-|[<-|[]]] & H); apply idx_x_iff in H; tauto.
  - intros [H|H].
    + exists #"IX", (skipn (drop_of t) t). split; [cbn; auto|]. apply idx_x_iff; auto.
    + exists #"IY", (skipn (drop_of t) t). split; [cbn; auto|]. apply idx_x_iff; auto.
Qed.

Definition shift_words : list str := map (fun '(_, m) => m ++ #" ") shifts.
Definition bit_words : list str := flat_map (fun m => map (fun d => m ++ #" " ++ d) digits8) [#"RES"; #"SET"].
Definition known : list str :=
  registers ++ [#"("; #")"; #"AF'"; #"0/1"; #"NZ"; #"Z"; #"NC"; #"PO"; #"PE"; #"P"; #"M"] ++ digits8 ++
  [#"0H"; #"8H"; #"10H"; #"18H"; #"20H"; #"28H"; #"30H"; #"38H"] ++ shift_words ++ bit_words ++ [#"* / IN "].
Definition others : list str := [#"IX+1"; #"IX-1"; #"IY+1"; #"IY-1"; #"OT"].
Definition nf (t : str) : str :=
  if str_in (upper t) known then upper t
  else if starts_with #"IX+" (upper t) then #"IX+1" else if starts_with #"IX-" (upper t) then #"IX-1"
  else if starts_with #"IY+" (upper t) then #"IY+1" else if starts_with #"IY-" (upper t) then #"IY-1" else #"OT".
Definition reps : list str := known ++ others.

Lemma nf_reps : forall t, In (nf t) reps.
Proof.
  intros t. unfold nf, reps. destruct (str_in (upper t) known) eqn:K; [apply in_or_app; left; apply str_in_In; exact K|].
  apply in_or_app. right.
  destruct (starts_with #"IX+" _); [cbn; auto|]. destruct (starts_with #"IX-" _); [cbn; auto|].
  destruct (starts_with #"IY+" _); [cbn; auto|]. destruct (starts_with #"IY-" _); cbn; auto 9.
Qed.
Lemma nf_known : forall t, str_in (upper t) known = true -> upper (nf t) = upper t.
Proof. intros t K. unfold nf. rewrite K. apply upper_idem. Qed.
Lemma nf_unknown : forall t, str_in (upper t) known = false -> str_in (upper (nf t)) known = false.
Proof.
  intros t K. unfold nf. rewrite K.
  destruct (starts_with #"IX+" _); [reflexivity|]. destruct (starts_with #"IX-" _); [reflexivity|].
  destruct (starts_with #"IY+" _); [reflexivity|]. destruct (starts_with #"IY-" _); reflexivity.
Qed.
Lemma nf_word : forall t w, str_in w known = true -> str_eqb (upper (nf t)) w = str_eqb (upper t) w.
Proof.
  intros t w W. destruct (str_in (upper t) known) eqn:K; [rewrite nf_known by exact K; reflexivity|].
  apply nf_unknown in K as K2.
  assert (X : forall u, str_in u known = false -> str_eqb u w = false).
  { intros u U. destruct (str_eqb u w) eqn:E; [|reflexivity]. apply str_eqb_eq in E. congruence. }
  rewrite !X; auto.
Qed.
Lemma nf_list : forall t l, forallb (fun w => str_in w known) l = true -> str_in (upper (nf t)) l = str_in (upper t) l.
Proof.
  intros t l H. unfold str_in. induction l as [|w l IH]; [reflexivity|]. cbn [forallb existsb] in *.
  apply andb_prop in H. destruct H as [H1 H2]. rewrite nf_word, IH by assumption. reflexivity.
Qed.
Lemma known_prefix : forall u, str_in u known = true -> 
  starts_with #"IX+" u = false /\ starts_with #"IX-" u = false /\ starts_with #"IY+" u = false /\ starts_with #"IY-" u = false.
Proof.
  intros u K. apply str_in_In in K.
  assert (X : forallb (fun u => negb (starts_with #"IX+" u || starts_with #"IX-" u || starts_with #"IY+" u || starts_with #"IY-" u)) known = true) by reflexivity.
  rewrite forallb_forall in X. apply X in K. apply negb_true_iff in K. repeat (apply orb_false_elim in K; destruct K as [K ?]). auto.
Qed.
Lemma starts3 : forall (u : str) a b c a' b' c', starts_with [a; b; c] u = true -> starts_with [a'; b'; c'] u = true -> [a; b; c] = [a'; b'; c'].
Proof.
  intros u a b c a' b' c' H1 H2. apply starts_with_iff in H1, H2. destruct H1 as [x ->]. destruct H2 as [y H2]. cbn [app] in H2. injection H2 as -> -> -> _. reflexivity.
Qed.
Lemma nf_prefix : forall t w, In w [#"IX+"; #"IX-"; #"IY+"; #"IY-"] -> starts_with w (upper (nf t)) = starts_with w (upper t).
Proof.
  intros t w I. destruct (str_in (upper t) known) eqn:K; [rewrite nf_known by exact K; reflexivity|].
  unfold nf. rewrite K. set (u := upper t).
  assert (N : forall a b, starts_with a u = true -> starts_with b u = false -> a <> b) by congruence.
  destruct (starts_with #"IX+" u) eqn:E1.
  { destruct I as [<-|[<-|[<-|[<-|[]]]]]; [rewrite E1; reflexivity| | |];
      match goal with |- _ = ?x => destruct x eqn:E2; [exfalso; discriminate (starts3 _ _ _ _ _ _ _ E1 E2)|reflexivity] end. }
  destruct (starts_with #"IX-" u) eqn:E2.
  { destruct I as [<-|[<-|[<-|[<-|[]]]]]; [rewrite E1; reflexivity|rewrite E2; reflexivity| |];
      match goal with |- _ = ?x => destruct x eqn:E3; [exfalso; discriminate (starts3 _ _ _ _ _ _ _ E2 E3)|reflexivity] end. }
  destruct (starts_with #"IY+" u) eqn:E3.
  { destruct I as [<-|[<-|[<-|[<-|[]]]]]; [rewrite E1; reflexivity|rewrite E2; reflexivity|rewrite E3; reflexivity|];
      match goal with |- _ = ?x => destruct x eqn:E4; [exfalso; discriminate (starts3 _ _ _ _ _ _ _ E3 E4)|reflexivity] end. }
  destruct (starts_with #"IY-" u) eqn:E4;
    (destruct I as [<-|[<-|[<-|[<-|[]]]]]; [rewrite E1|rewrite E2|rewrite E3|rewrite E4]; reflexivity).
Qed.
Lemma nf_idx_x : forall r t, In r [#"IX"; #"IY"] -> idx_x r (nf t) = idx_x r t.
Proof. intros r t I. unfold idx_x. rewrite !nf_prefix; [reflexivity| |]; destruct I as [<-|[<-|[]]]; cbn; auto. Qed.
Lemma nf_idx : forall t, idx (nf t) = idx t.
Proof. intros. unfold idx. rewrite !nf_idx_x; cbn; auto. Qed.
Lemma idx_four : forall t, idx t = (starts_with #"IX+" (upper t) || starts_with #"IX-" (upper t)) ||
  (starts_with #"IY+" (upper t) || starts_with #"IY-" (upper t)).
Proof. reflexivity. Qed.
Lemma nf_drop : forall t, idx t = true -> drop_of (nf t) = drop_of t.
Proof.
  intros t H. assert (K : str_in (upper t) known = false).
  { destruct (str_in (upper t) known) eqn:E; [|reflexivity]. apply known_prefix in E. destruct E as (A & B & C & D).
    rewrite idx_four in H. rewrite A, B, C, D in H. discriminate. }
  assert (P : forall w a b c, w = [a; b; c] -> starts_with w (upper t) = true -> upper_chr (nth 2 t " "%char) = c).
  { intros w a b c -> E. apply (first3 [a; b] t c eq_refl) in E. cbn [app] in E. apply third in E. tauto. }
  unfold nf. rewrite K. rewrite idx_four in H.
  destruct (starts_with #"IX+" (upper t)) eqn:E1; [apply (P _ _ _ _ eq_refl), upper_plus in E1; unfold drop_of; rewrite E1; reflexivity|].
  destruct (starts_with #"IX-" (upper t)) eqn:E2; [apply (P _ _ _ _ eq_refl), upper_minus in E2; unfold drop_of; rewrite E2; reflexivity|].
  destruct (starts_with #"IY+" (upper t)) eqn:E3; [apply (P _ _ _ _ eq_refl), upper_plus in E3; unfold drop_of; rewrite E3; reflexivity|].
  destruct (starts_with #"IY-" (upper t)) eqn:E4; [apply (P _ _ _ _ eq_refl), upper_minus in E4; unfold drop_of; rewrite E4; reflexivity|].
  discriminate.
Qed.
Lemma nf_blank : forall t, In " "%char (nf t) -> In " "%char t.
Proof.
  intros t H. unfold nf in H. destruct (str_in (upper t) known).
  - unfold upper in H. apply in_map_iff in H. destruct H as (c & E & I). apply upper_blank in E. subst. exact I.
  - exfalso. revert H.
    destruct (starts_with #"IX+" _); [intros H; cbn in H; intuition discriminate|].
    destruct (starts_with #"IX-" _); [intros H; cbn in H; intuition discriminate|].
    destruct (starts_with #"IY+" _); [intros H; cbn in H; intuition discriminate|].
    destruct (starts_with #"IY-" _); intros H; cbn in H; intuition discriminate.
Qed.

(** ** The manual as a function *)

Definition want : Type := bytes * bytes * list (field * nat * nat).
Definition kmatch (k : kind) (t : str) : bool :=
  match k with
  | W w => str_eqb (upper t) w
  | V _ => negb (str_in (upper t) registers)
  | Addr => negb (str_in (upper t) registers) && negb (idx t)
  | X r => idx_x r t
  end.
Definition kop (k : kind) (t : str) (i : nat) : list (field * nat * nat) :=
  match k with W _ => [] | V f => [(f, i, 0%nat)] | Addr => [(SpecByte.Word, i, 0%nat)] | X _ => [(Index, i, drop_of t)] end.
Fixpoint kwants (ks : list kind) (ops : list str) (i : nat) : option (list (field * nat * nat)) :=
  match ks, ops with
  | [], [] => Some []
  | k :: ks', t :: ops' => if kmatch k t then option_map (app (kop k t i)) (kwants ks' ops' (S i)) else None
  | _, _ => None
  end.
Definition forms_of (m : str) : list (bytes * bytes * list kind) :=
  flat_map (fun '(n, f) => if str_eqb n m then [f] else []) manual.
Definition spec_sel (fs : list (bytes * bytes * list kind)) (ops : list str) : list want :=
  flat_map (fun '(pre, suf, ks) => match kwants ks ops 0 with Some l => [(pre, suf, l)] | None => [] end) fs.
Definition word_ok (k : kind) : bool :=
  match k with W w => str_in w known | X r => str_in r [#"IX"; #"IY"] | _ => true end.

Lemma not_register : forall t, negb (str_in (upper t) registers) = true <-> ~ In (upper t) registers.
Proof.
  intros t. rewrite negb_true_iff. split.
  - intros F I. apply str_in_In in I. congruence.
  - intros N. destruct (str_in (upper t) registers) eqn:E; [|reflexivity]. apply str_in_In in E. tauto.
Qed.
Lemma operand_iff : forall k pre t post v, word_ok k = true -> operand k t v <->
  kmatch k t = true /\ v = picked (pre ++ t :: post) (kop k t (length pre)).
Proof.
  intros k pre t post v WO. unfold picked.
  assert (N : nth (length pre) (pre ++ t :: post) [] = t) by (rewrite app_nth2, Nat.sub_diag by lia; reflexivity).
  destruct k; cbn [kmatch kop map]; rewrite ?N; change (skipn 0 t) with t.
  - split.
    + intros H. inversion H; subst. split; [apply str_eqb_eq; reflexivity|reflexivity].
    + intros [E ->]. apply str_eqb_eq in E. constructor. exact E.
  - split.
    + intros H. inversion H; subst. split; [apply not_register; assumption|reflexivity].
    + intros [E ->]. constructor. apply not_register. exact E.
  - split.
    + intros H. inversion H as [| |? Y1 Y2|]; subst. split; [|reflexivity]. apply andb_true_intro. split; [apply not_register; assumption|].
      apply negb_true_iff. destruct (idx t) eqn:E; [apply idx_iff in E; tauto|reflexivity].
    + intros [E ->]. apply andb_prop in E. destruct E as [E1 E2]. constructor; [apply not_register; exact E1|].
      intros H. apply idx_iff in H. rewrite H in E2. discriminate.
  - assert (L : length r = 2%nat) by (cbn [word_ok] in WO; apply str_in_In in WO; destruct WO as [<-|[<-|[]]]; reflexivity). split.
    + intros H. inversion H as [| | |? ? ? Y]; subst. apply idx_x_iff in Y; [|exact L]. destruct Y as [Y ->]. auto.
    + intros [E ->]. constructor. apply idx_x_iff; auto.
Qed.
Lemma operands_iff : forall ks pre ops vs, forallb word_ok ks = true -> operands ks ops vs <->
  exists l, kwants ks ops (length pre) = Some l /\ vs = picked (pre ++ ops) l.
Proof.
  induction ks as [|k ks IH]; intros pre ops vs WO; destruct ops as [|t ops]; cbn [kwants].
  - split; [intros H; inversion H; subst; exists []; auto|]. intros (l & E & ->). injection E as <-. constructor.
  - split; [intros H; inversion H|]. intros (l & E & _). discriminate.
  - split; [intros H; inversion H|]. intros (l & E & _). discriminate.
  - cbn [forallb] in WO. apply andb_prop in WO. destruct WO as [W1 W2].
    assert (EQ : pre ++ t :: ops = (pre ++ [t]) ++ ops) by (rewrite <- app_assoc; reflexivity).
    assert (LN : length (pre ++ [t]) = S (length pre)) by (rewrite app_length; cbn; lia).
    split.
    + intros H. inversion H as [|k0 ks0 t0 ts0 v0 vs0 O1 O2]; subst. apply (operand_iff k pre t ops _ W1) in O1. destruct O1 as [K ->].
      apply (IH (pre ++ [t]) _ _ W2) in O2. destruct O2 as (l & E & ->). rewrite LN in E. rewrite K, E. cbn [option_map].
      eexists. split; [reflexivity|]. rewrite EQ. unfold picked. rewrite map_app. reflexivity.
    + intros (l & E & ->). destruct (kmatch k t) eqn:K; [|discriminate].
      destruct (kwants ks ops (S (length pre))) as [l'|] eqn:E2; [|discriminate]. injection E as <-.
      unfold picked. rewrite map_app. constructor.
      * apply (operand_iff k pre t ops _ W1). auto.
      * apply (IH (pre ++ [t]) _ _ W2). exists l'. rewrite LN. split; [exact E2|]. rewrite EQ. reflexivity.
Qed.
Lemma manual_words : forallb (fun '(_, (_, _, ks)) => forallb word_ok ks) manual = true.
Proof. vm_compute. reflexivity. Qed.
Lemma manual_ok : forall m pre suf ks, In (m, (pre, suf, ks)) manual -> forallb word_ok ks = true.
Proof. intros m pre suf ks I. pose proof manual_words as W. rewrite forallb_forall in W. apply W in I. exact I. Qed.
Lemma forms_in : forall m pre suf ks, In (pre, suf, ks) (forms_of m) <-> In (m, (pre, suf, ks)) manual.
Proof.
  intros m pre suf ks. unfold forms_of. rewrite in_flat_map. split.
  - intros ((n & f) & I & J). destruct (str_eqb n m) eqn:E; [|destruct J]. apply str_eqb_eq in E. subst n. destruct J as [->|[]]. exact I.
  - intros I. exists (m, (pre, suf, ks)). split; [exact I|]. cbv beta iota. rewrite (proj2 (str_eqb_eq m m) eq_refl). left. reflexivity.
Qed.
Lemma encodes_iff : forall s m ops b ds, encodes s m ops b ds <->
  exists pre suf l, In (pre, suf, l) (spec_sel (forms_of m) ops) /\ laid_out z_p s pre suf (picked ops l) b ds.
Proof.
  intros s m ops b ds. unfold encodes, spec_sel. split.
  - intros (pre & suf & ks & vs & I & O & L). apply (operands_iff ks [] _ _ (manual_ok _ _ _ _ I)) in O. destruct O as (l & K & ->).
    exists pre, suf, l. split; [|exact L]. apply in_flat_map. exists (pre, suf, ks). split; [apply forms_in; exact I|].
    cbn [length] in K. rewrite K. left. reflexivity.
  - intros (pre & suf & l & I & L). apply in_flat_map in I. destruct I as (((pre' & suf') & ks) & I & J).
    destruct (kwants ks ops 0) as [l'|] eqn:K; [|destruct J]. destruct J as [J|[]]. injection J as <- <- <-.
    apply forms_in in I. exists pre', suf', ks, (picked ops l'). split; [exact I|]. split; [|exact L].
    apply (operands_iff ks [] _ _ (manual_ok _ _ _ _ I)). exists l'. auto.
Qed.

Lemma kmatch_nf : forall k t, word_ok k = true -> kmatch k (nf t) = kmatch k t.
Proof.
  intros [w|f| |r] t K; cbn [kmatch word_ok] in *.
  - apply nf_word. exact K.
  - rewrite nf_list by reflexivity. reflexivity.
  - rewrite nf_list, nf_idx by reflexivity. reflexivity.
  - apply nf_idx_x. apply str_in_In. exact K.
Qed.
Lemma kwants_nf : forall ks ops i, forallb word_ok ks = true -> kwants ks (map nf ops) i = kwants ks ops i.
Proof.
  induction ks as [|k ks IH]; intros [|t ops] i K; try reflexivity. cbn [map kwants forallb] in *.
  apply andb_prop in K. destruct K as [K1 K2]. rewrite kmatch_nf, IH by assumption.
  destruct (kmatch k t) eqn:M; [|reflexivity]. f_equal. f_equal. destruct k; try reflexivity. cbn [kop]. rewrite nf_drop; [reflexivity|].
  unfold idx. cbn [kmatch word_ok] in *. apply str_in_In in K1. destruct K1 as [<-|[<-|[]]]; rewrite M; [reflexivity|apply orb_true_r].
Qed.
Lemma spec_sel_nf : forall m ops, spec_sel (forms_of m) (map nf ops) = spec_sel (forms_of m) ops.
Proof.
  intros m ops. unfold spec_sel.
  assert (H : forall fs : list (bytes * bytes * list kind), (forall pre suf ks, In (pre, suf, ks) fs -> forallb word_ok ks = true) ->
    flat_map (fun '(pre, suf, ks) => match kwants ks (map nf ops) 0 with Some l => [(pre, suf, l)] | None => [] end) fs =
    flat_map (fun '(pre, suf, ks) => match kwants ks ops 0 with Some l => [(pre, suf, l)] | None => [] end) fs).
  { induction fs as [|[[pre suf] ks] fs IH]; intros H; [reflexivity|]. cbn [flat_map].
    rewrite kwants_nf by (eapply H; left; reflexivity). rewrite IH; [reflexivity|]. intros; eapply H; right; eauto. }
  apply H. intros pre suf ks I. apply forms_in in I. eapply manual_ok; eauto.
Qed.
Lemma kwants_cover : forall ks ops i l, kwants ks ops i = Some l -> Forall2 (fun k t => kmatch k t = true) ks ops.
Proof.
  induction ks as [|k ks IH]; intros [|t ops] i l H; try discriminate; constructor; cbn [kwants] in H.
  - destruct (kmatch k t); [reflexivity|discriminate].
  - destruct (kmatch k t); [|discriminate]. destruct (kwants ks ops (S i)) eqn:E; [|discriminate]. eapply IH; eauto.
Qed.
