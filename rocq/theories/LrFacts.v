(** The LR35902 model encodes the instructions of its manual. *)
From Coq Require Import Lia.
From Verif Require Import Py PyFacts Utils Tokenizer State Assembler Instr Lr35902.
From Verif Require Import SpecUtils SpecSubst SpecExec SpecCpu SpecByte SpecLr UtilsFacts CpuFacts MosFacts WordFacts.
Local Open Scope Z_scope.

(** ** Classes of tokens *)

Definition words : list str := regs8 ++ regs16 ++ conditions ++ [#"("; #")"; #"["; #"]"].
Definition digits8 : list str := [#"0"; #"1"; #"2"; #"3"; #"4"; #"5"; #"6"; #"7"].
Definition known : list str :=
  words ++ [#"$"; #"+"] ++ digits8 ++ map fst rst_vectors ++ [#"$FF00+C"].
Definition unknown : list str := [#"$FF00+1"; #"99"; #"OT"].

(** A representative of all tokens that no test distinguishes from t. *)
Definition nf (t : str) : str :=
  if str_in (upper t) known then
    if str_eqb (upper t) #"$FF00+C" then
      if str_eqb t #"$FF00+C" then t
      else if starts_with #"$FF00+" t then #"$FF00+c" else #"$ff00+c"
    else upper t
  else if starts_with #"$FF00+" t then #"$FF00+1"
  else if isdigit t then #"99" else #"OT".
Definition reps : list str := known ++ [#"$FF00+c"; #"$ff00+c"] ++ unknown.

Lemma nf_reps : forall t, In (nf t) reps.
Proof.
  intros t. unfold nf, reps. destruct (str_in (upper t) known) eqn:K.
  - destruct (str_eqb (upper t) #"$FF00+C") eqn:E.
    + destruct (str_eqb t #"$FF00+C") eqn:E2.
      * apply str_eqb_eq in E2. rewrite E2. apply str_in_In. reflexivity.
      * destruct (starts_with #"$FF00+" t); apply str_in_In; reflexivity.
    + apply in_or_app. left. apply str_in_In. exact K.
  - destruct (starts_with #"$FF00+" t); [apply str_in_In; reflexivity|].
    destruct (isdigit t); apply str_in_In; reflexivity.
Qed.

Lemma upper_chr_idem : forall c, upper_chr (upper_chr c) = upper_chr c.
Proof. intros [[] [] [] [] [] [] [] []]; reflexivity. Qed.
Lemma upper_idem : forall t, upper (upper t) = upper t.
Proof. intros. unfold upper. rewrite map_map. apply map_ext. apply upper_chr_idem. Qed.

Lemma nf_known : forall t, str_in (upper t) known = true -> upper (nf t) = upper t.
Proof.
  intros t K. unfold nf. rewrite K. destruct (str_eqb (upper t) #"$FF00+C") eqn:E.
  - apply str_eqb_eq in E. destruct (str_eqb t #"$FF00+C"); [reflexivity|].
    destruct (starts_with #"$FF00+" t); rewrite E; reflexivity.
  - apply upper_idem.
Qed.
Lemma nf_unknown : forall t, str_in (upper t) known = false -> str_in (upper (nf t)) known = false.
Proof.
  intros t K. unfold nf. rewrite K. destruct (starts_with #"$FF00+" t); [reflexivity|].
  destruct (isdigit t); reflexivity.
Qed.
Lemma nf_word : forall t w, str_in w known = true -> str_eqb (upper (nf t)) w = str_eqb (upper t) w.
Proof.
  intros t w W. destruct (str_in (upper t) known) eqn:K; [rewrite nf_known by exact K; reflexivity|].
  apply nf_unknown in K as K2.
  assert (X : forall u, str_in u known = false -> str_eqb u w = false).
  { intros u U. destruct (str_eqb u w) eqn:E; [|reflexivity]. apply str_eqb_eq in E. congruence. }
  rewrite !X; auto.
Qed.
Lemma nf_list : forall t l, forallb (fun w => str_in w known) l = true -> str_in (upper (nf t)) l = str_in (upper t) l.
Proof.
  intros t l H. unfold str_in. induction l as [|w l IH]; [reflexivity|]. cbn [forallb existsb] in *.
  apply andb_prop in H. destruct H as [H1 H2]. rewrite nf_word, IH by assumption. reflexivity.
Qed.

Lemma upper_digit : forall t, isdigit (upper t) = isdigit t.
Proof.
  intros [|c t]; [reflexivity|]. cbn [isdigit upper map]. change (upper_chr c :: map upper_chr t) with (upper (c :: t)).
  generalize (c :: t). clear. intros t. induction t as [|c t IH]; [reflexivity|]. cbn [upper map forallb].
  f_equal; [|exact IH]. destruct c as [[] [] [] [] [] [] [] []]; reflexivity.
Qed.
Lemma upper_starts : forall p t, starts_with p t = true -> starts_with (upper p) (upper t) = true.
Proof.
  intros p t H. apply starts_with_iff in H. destruct H as [x ->]. apply starts_with_iff. exists (upper x).
  unfold upper. apply map_app.
Qed.
Lemma nf_digit : forall t, isdigit (nf t) = isdigit t.
Proof.
  intros t. unfold nf. destruct (str_in (upper t) known) eqn:K.
  - destruct (str_eqb (upper t) #"$FF00+C") eqn:E; [|apply upper_digit].
    apply str_eqb_eq in E. rewrite <- (upper_digit t), E.
    destruct (str_eqb t #"$FF00+C") eqn:E2; [apply str_eqb_eq in E2; subst; reflexivity|].
    destruct (starts_with #"$FF00+" t); reflexivity.
  - destruct (starts_with #"$FF00+" t) eqn:P.
    + apply starts_with_iff in P. destruct P as [x ->]. reflexivity.
    + destruct (isdigit t); reflexivity.
Qed.
Lemma nf_page : forall t, starts_with #"$FF00+" (nf t) = starts_with #"$FF00+" t.
Proof.
  intros t. unfold nf. destruct (str_in (upper t) known) eqn:K.
  - destruct (str_eqb (upper t) #"$FF00+C") eqn:E.
    + destruct (str_eqb t #"$FF00+C") eqn:E2; [apply str_eqb_eq in E2; subst; reflexivity|].
      destruct (starts_with #"$FF00+" t); reflexivity.
    + assert (X : starts_with #"$FF00+" (upper t) = false).
      { assert (Y : forall w, In w known -> str_eqb w #"$FF00+C" = false -> starts_with #"$FF00+" w = false).
        { intros w I F. assert (Z : forallb (fun w => str_eqb w #"$FF00+C" || negb (starts_with #"$FF00+" w)) known = true) by reflexivity.
          rewrite forallb_forall in Z. apply Z in I. rewrite F in I. apply negb_true_iff in I. exact I. }
        apply Y; [apply str_in_In; exact K|exact E]. }
      rewrite X. destruct (starts_with #"$FF00+" t) eqn:P; [|reflexivity].
      apply upper_starts in P. change (upper #"$FF00+") with #"$FF00+" in P. congruence.
  - destruct (starts_with #"$FF00+" t) eqn:P; [reflexivity|]. destruct (isdigit t); reflexivity.
Qed.
Lemma nf_page_c : forall t, str_eqb (nf t) #"$FF00+C" = str_eqb t #"$FF00+C".
Proof.
  intros t. destruct (str_eqb t #"$FF00+C") eqn:E.
  - apply str_eqb_eq in E. subst. reflexivity.
  - unfold nf. rewrite E. destruct (str_in (upper t) known) eqn:K.
    + destruct (str_eqb (upper t) #"$FF00+C") eqn:E2; [|exact E2]. destruct (starts_with #"$FF00+" t); reflexivity.
    + destruct (starts_with #"$FF00+" t); [reflexivity|]. destruct (isdigit t); reflexivity.
Qed.
Lemma nf_value : forall t, lr_value (nf t) = lr_value t.
Proof. intros. unfold lr_value. rewrite nf_list by reflexivity. reflexivity. Qed.
Lemma nf_ldh : forall t, lr_ldh (nf t) = lr_ldh t.
Proof. intros. unfold lr_ldh. rewrite nf_page, nf_page_c. reflexivity. Qed.

Lemma nf_lower : forall t, str_in (upper t) words = true -> lower (nf t) = lower t.
Proof.
  intros t W. assert (K : str_in (upper t) known = true).
  { apply str_in_In. apply str_in_In in W. unfold known. apply in_or_app. left. exact W. }
  apply upper_eq_lower. apply nf_known. exact K.
Qed.

(** ** Patterns *)

Inductive good_pat : pattern -> Prop :=
| gp_str s : forallb (fun w => str_in w known) (upper s :: map (fun c => upper [c]) s) = true -> good_pat (PStr s)
| gp_tuple l : forallb (fun w => str_in w known) (map upper l) = true -> good_pat (PTuple l)
| gp_value : good_pat (PFun lr_value)
| gp_number : good_pat (PFun lr_number)
| gp_ldh : good_pat (PFun lr_ldh).

Lemma existsb_map : forall A B (f : A -> B) (g : B -> bool) l, existsb g (map f l) = existsb (fun x => g (f x)) l.
Proof. intros. induction l; cbn; congruence. Qed.
Lemma existsb_ext : forall A (f g : A -> bool) l, (forall x, In x l -> f x = g x) -> existsb f l = existsb g l.
Proof. intros. induction l as [|a l IH]; [reflexivity|]. cbn [existsb]. rewrite H by (left; auto). rewrite IH; [reflexivity|intros; apply H; right; auto]. Qed.

Lemma nf_pat : forall p t, good_pat p -> imatch1 p (nf t) = imatch1 p t.
Proof.
  intros p t []; cbn [imatch1].
  - cbn [forallb] in H. apply andb_prop in H. destruct H as [H1 H2]. rewrite nf_word by exact H1. f_equal.
    apply existsb_ext. intros c I. apply nf_word. rewrite forallb_forall in H2. apply H2.
    change (upper [c]) with ((fun c => upper [c]) c). apply in_map. exact I.
  - apply existsb_ext. intros w I. apply nf_word. rewrite forallb_forall in H. apply H. apply in_map. exact I.
  - apply nf_value.
  - apply nf_digit.
  - apply nf_ldh.
Qed.
Lemma nf_match : forall (t0 t1 : str) ps (ops : list str), Forall good_pat ps ->
  imatch (t1 :: map nf ops) 1 ps = imatch (t0 :: ops) 1 ps.
Proof.
  intros t0 t1 ps ops G. unfold imatch. cbn [length skipn]. rewrite map_length. f_equal.
  revert ops. induction G as [|p ps Gp G IH]; intros [|t ops]; try reflexivity. cbn [map match_all].
  rewrite nf_pat, IH by assumption. reflexivity.
Qed.

(** ** What the model selects: opcode bytes and operands (kind, token, characters dropped) *)

Definition want : Type := bytes * list (field * nat * nat).
Definition to_field (o : oper) : field := match o with D8 => Byte | R8 => Disp | D16 => Word end.
Definition picked (ops : list str) (l : list (field * nat * nat)) : list (field * str) :=
  map (fun '(f, i, d) => (f, skipn d (nth i ops []))) l.

Definition sel (pre : bytes) (bs : list branch) (kw : list (str * Z)) (ops : list str) : option want :=
  match find (br_holds kw (([] : str) :: ops)) bs with
  | None => None
  | Some b =>
      match dget str_eqb kw (key_of (([] : str) :: ops) (br_key b)) with
      | None => None
      | Some c => Some (pre ++ [c], match br_operand b with Some (o, i, d) => [(to_field o, pred i, d)] | None => [] end)
      end
  end.

(** Pieces that name a register stand where only register names match. *)
Definition named (p : pattern) : bool :=
  match p with PTuple l => forallb (fun x => str_in (upper x) words) l | _ => false end.
Definition piece_ok (ps : list pattern) (p : piece) : bool :=
  match p with
  | Lit _ => true
  | Reg (S i) => match nth_error ps i with Some p => named p | None => false end
  | _ => false
  end.
Definition pieces_of (b : branch) : list piece := br_key b ++ match br_needs b with Some k => k | None => [] end.
Definition good_branch (b : branch) : Prop :=
  Forall (Forall good_pat) (br_pats b) /\
  forallb (fun ps => forallb (piece_ok ps) (pieces_of b)) (br_pats b) = true.

Lemma nth_error_match : forall ps ops i p, Forall2 (fun p t => imatch1 p t = true) ps ops ->
  nth_error ps i = Some p -> imatch1 p (nth i ops []) = true.
Proof.
  intros ps ops i p F. revert i. induction F as [|q t ps ops H F IH]; intros [|i] E; try discriminate.
  - injection E as <-. exact H.
  - cbn [nth]. apply IH. exact E.
Qed.
Lemma named_word : forall p t, named p = true -> imatch1 p t = true -> str_in (upper t) words = true.
Proof.
  intros [| |l|] t N M; try discriminate. cbn [named imatch1] in *. apply existsb_exists in M.
  destruct M as (x & I & E). apply str_eqb_eq in E. rewrite E. rewrite forallb_forall in N. apply N. exact I.
Qed.
Lemma nth_map_nf : forall ops i, (i < length ops)%nat -> nth i (map nf ops) [] = nf (nth i ops []).
Proof. intros ops i L. rewrite (nth_indep _ [] (nf [])) by (rewrite map_length; exact L). apply map_nth. Qed.

Lemma key_nf : forall ps (ops : list str) k (t0 t1 : str), Forall2 (fun p t => imatch1 p t = true) ps ops ->
  forallb (piece_ok ps) k = true -> key_of (t1 :: map nf ops) k = key_of (t0 :: ops) k.
Proof.
  intros ps ops k t0 t1 F K. unfold key_of. f_equal. apply map_ext_in. intros p I.
  rewrite forallb_forall in K. apply K in I. destruct p as [s|[|i]|i]; try discriminate; [reflexivity|].
  cbn [piece_ok nth] in *. destruct (nth_error ps i) as [p|] eqn:E; [|discriminate].
  assert (L : (i < length ops)%nat).
  { assert (length ps = length ops) by (clear -F; induction F; cbn; auto). rewrite <- H. apply nth_error_Some. congruence. }
  rewrite nth_map_nf by exact L. unfold reg_name. rewrite nf_lower; [reflexivity|].
  eapply named_word; [exact I|]. eapply nth_error_match; eauto.
Qed.

Lemma holds_nf : forall kw (t0 t1 : str) (ops : list str) b, good_branch b ->
  br_holds kw (t1 :: map nf ops) b = br_holds kw (t0 :: ops) b /\
  (br_holds kw (t0 :: ops) b = true -> key_of (t1 :: map nf ops) (br_key b) = key_of (t0 :: ops) (br_key b)).
Proof.
  intros kw t0 t1 ops b [G K]. unfold br_holds.
  assert (E : existsb (imatch (t1 :: map nf ops) 1) (br_pats b) = existsb (imatch (t0 :: ops) 1) (br_pats b)).
  { apply existsb_ext. intros ps I. apply nf_match. rewrite Forall_forall in G. auto. }
  rewrite E. destruct (existsb (imatch (t0 :: ops) 1) (br_pats b)) eqn:X; [|split; [reflexivity|discriminate]].
  apply existsb_exists in X. destruct X as (ps & I & M). apply (proj1 (imatch_cons _ _ _)) in M.
  rewrite forallb_forall in K. apply K in I. unfold pieces_of in I. rewrite forallb_app in I.
  apply andb_prop in I. destruct I as [I1 I2]. split; [|intros _; eapply key_nf; eauto].
  destruct (br_needs b) as [k|]; [|reflexivity]. rewrite (key_nf ps ops k t0 t1) by assumption. reflexivity.
Qed.
Lemma find_nf : forall kw (t0 t1 : str) (ops : list str) bs, Forall good_branch bs ->
  find (br_holds kw (t1 :: map nf ops)) bs = find (br_holds kw (t0 :: ops)) bs.
Proof.
  intros kw t0 t1 ops bs G. induction G as [|b bs Gb G IH]; [reflexivity|]. cbn [find].
  rewrite (proj1 (holds_nf kw t0 t1 ops b Gb)), IH. reflexivity.
Qed.
Lemma sel_nf : forall pre bs kw ops, Forall good_branch bs -> sel pre bs kw (map nf ops) = sel pre bs kw ops.
Proof.
  intros pre bs kw ops G. unfold sel. rewrite (find_nf kw [] [] ops bs G).
  destruct (find (br_holds kw (([] : str) :: ops)) bs) as [b|] eqn:F; [|reflexivity].
  apply find_some in F. destruct F as [I H]. rewrite Forall_forall in G.
  rewrite (proj2 (holds_nf kw [] [] ops b (G b I)) H). reflexivity.
Qed.

Definition patterns_of (bs : list branch) : list (list pattern) := flat_map br_pats bs.
Lemma sel_cover : forall pre bs kw ops w, sel pre bs kw ops = Some w ->
  exists ps, In ps (patterns_of bs) /\ Forall2 (fun p t => imatch1 p t = true) ps ops.
Proof.
  intros pre bs kw ops w H. unfold sel in H. destruct (find (br_holds kw (([] : str) :: ops)) bs) as [b|] eqn:F; [|discriminate].
  apply find_some in F. destruct F as [I B]. unfold br_holds in B. apply andb_prop in B. destruct B as [B _].
  apply existsb_exists in B. destruct B as (ps & J & M). exists ps. split; [|apply (proj1 (imatch_cons _ _ _)) in M; exact M].
  unfold patterns_of. apply in_flat_map. eauto.
Qed.

Ltac good_pats := repeat (constructor; [repeat (constructor; [constructor; reflexivity|]); constructor|]); constructor.
Lemma branches_good : forall c r, Forall good_branch (lr_branches c r).
Proof.
  intros c r. unfold lr_branches. apply Forall_app. split.
  - destruct c; [|constructor]. destruct r; repeat (constructor; [split; [good_pats|reflexivity]|]); constructor.
  - repeat (constructor; [split; [good_pats|reflexivity]|]). constructor.
Qed.

(** ** Bits of shifts: decimal tokens other than 0 to 7 find nothing *)

Fixpoint span_digits (s : str) : str * str :=
  match s with
  | c :: r => if is_digit c then let '(a, b) := span_digits r in (c :: a, b) else ([], s)
  | [] => ([], [])
  end.
Definition bit_key (k : str) : bool :=
  match k with
  | c :: r => if Ascii.eqb c "b" then
                match span_digits r with
                | (v, "_"%char :: _) => str_in v ([] :: digits8)
                | _ => true
                end
              else true
  | [] => true
  end.
Lemma span_app : forall v r, forallb is_digit v = true -> span_digits (v ++ "_"%char :: r) = (v, "_"%char :: r).
Proof.
  induction v as [|c v IH]; intros r H; [reflexivity|]. cbn [forallb] in H. apply andb_prop in H. destruct H as [H1 H2].
  cbn [app span_digits]. rewrite H1, IH by exact H2. reflexivity.
Qed.
Lemma bit_missing : forall kw v r, forallb (fun '(k, _) => bit_key k) kw = true -> isdigit v = true ->
  str_in v digits8 = false -> dget str_eqb kw ("b"%char :: v ++ "_"%char :: r) = None (A := Z).
Proof.
  intros kw v r K D N. destruct (dget str_eqb kw ("b"%char :: v ++ "_"%char :: r)) as [z|] eqn:E; [|reflexivity].
  apply (dget_In str_eqb str_eqb_eq) in E. rewrite forallb_forall in K. apply K in E. cbn [bit_key] in E.
  rewrite Ascii.eqb_refl in E. rewrite span_app in E by (destruct v; [discriminate|exact D]).
  cbn [str_in existsb] in E. unfold str_in in N, E. cbn [existsb] in E. rewrite N, orb_false_r in E.
  apply str_eqb_eq in E. subst. discriminate.
Qed.

Lemma nf_bit : forall t, isdigit t = true -> nf t = t \/ (nf t = #"99" /\ str_in t digits8 = false).
Proof.
  intros t D. assert (U : upper t = t).
  { destruct t as [|c t]; [reflexivity|]. cbn [isdigit] in D. revert D. generalize (c :: t). clear.
    intros t. induction t as [|c t IH]; intros D; [reflexivity|]. cbn [forallb] in D. apply andb_prop in D. destruct D as [D1 D2].
    cbn [upper map]. f_equal; [|apply IH; exact D2]. destruct c as [[] [] [] [] [] [] [] []]; (reflexivity || discriminate). }
  unfold nf. rewrite U. destruct (str_in t known) eqn:K.
  - destruct (str_eqb t #"$FF00+C") eqn:E; [apply str_eqb_eq in E; subst; discriminate|]. left. reflexivity.
  - right. destruct (starts_with #"$FF00+" t) eqn:P.
    { apply starts_with_iff in P. destruct P as [x ->]. discriminate. }
    rewrite D. split; [reflexivity|]. destruct (str_in t digits8) eqn:X; [|reflexivity].
    apply str_in_In in X. rewrite <- K. symmetry. apply str_in_In. unfold known. apply in_or_app. right. apply in_or_app. right.
    apply in_or_app. left. exact X.
Qed.

Definition cb_good (b : branch) : Prop := Forall (Forall good_pat) (br_pats b) /\ br_needs b = None.
Lemma cb_branches_good : Forall cb_good cb_branches.
Proof. unfold cb_branches. repeat (constructor; [split; [good_pats|reflexivity]|]). constructor. Qed.
Lemma cb_find_nf : forall kw (t0 t1 : str) (ops : list str) bs, Forall cb_good bs ->
  find (br_holds kw (t1 :: map nf ops)) bs = find (br_holds kw (t0 :: ops)) bs.
Proof.
  intros kw t0 t1 ops bs G. induction G as [|b bs [Gb N] G IH]; [reflexivity|]. cbn [find].
  assert (E : br_holds kw (t1 :: map nf ops) b = br_holds kw (t0 :: ops) b).
  { unfold br_holds. rewrite N. f_equal. apply existsb_ext. intros ps I. apply nf_match. rewrite Forall_forall in Gb. auto. }
  rewrite E, IH. reflexivity.
Qed.
Ltac inv_match := repeat match goal with H : Forall2 _ _ _ |- _ => inversion H; subst; clear H end.
Lemma sel_cb_nf : forall kw ops, forallb (fun '(k, _) => bit_key k) kw = true ->
  sel [0xCB] cb_branches kw (map nf ops) = sel [0xCB] cb_branches kw ops.
Proof.
  intros kw ops K. unfold sel. rewrite (cb_find_nf kw [] [] ops cb_branches cb_branches_good).
  destruct (find (br_holds kw (([] : str) :: ops)) cb_branches) as [b|] eqn:F; [|reflexivity].
  apply find_some in F. destruct F as [I H]. unfold br_holds in H. apply andb_prop in H. destruct H as [H _].
  assert (X : dget str_eqb kw (key_of (([] : str) :: map nf ops) (br_key b)) = dget str_eqb kw (key_of (([] : str) :: ops) (br_key b))).
  { apply existsb_exists in H. destruct H as (ps & J & M). apply (proj1 (imatch_cons _ _ _)) in M.
    assert (BIT : forall t r, imatch1 Num t = true ->
      dget str_eqb kw (key_of [] [Lit #"b"] ++ nf t ++ "_"%char :: r) = dget str_eqb kw (key_of [] [Lit #"b"] ++ t ++ "_"%char :: r)).
    { intros t r D. cbn [imatch1 Num] in D. destruct (nf_bit t D) as [-> |[E N]]; [reflexivity|].
      rewrite E. transitivity (@None Z); [exact (bit_missing kw #"99" r K eq_refl eq_refl)|symmetry; exact (bit_missing kw t r K D N)]. }
    destruct I as [<-|[<-|[<-|[<-|[]]]]]; cbn [br_pats br_key brackets In] in *.
    - f_equal. destruct J as [<-|[]]. eapply key_nf; eauto.
    - reflexivity.
    - destruct J as [<-|[]]. inv_match. cbn [key_of map nth concat app] in *.
      unfold reg_name. rewrite nf_lower by (eapply (named_word R8s); [reflexivity|eassumption]).
      rewrite app_nil_r. apply BIT. assumption.
    - destruct J as [<-|[<-|[]]]; inv_match; cbn [key_of map nth concat app] in *; rewrite ?app_nil_r; apply BIT; assumption. }
  rewrite X. reflexivity.
Qed.

(** ** Operands *)

Lemma neg_pack : forall v, -128 <= v < 256 -> pack_8s [Some v] = Ok [v mod 256].
Proof.
  intros v R. unfold pack_8s, pack_s. cbn [map struct_pack neg_masked].
  change 0xff with (2 ^ 8 - 1). rewrite land_ones_mod by lia. change (2 ^ 8) with 256.
  pose proof (Z.mod_pos_bound v 256 ltac:(lia)) as B. set (m := v mod 256) in *.
  assert (F : neg_fix m 8 = if 128 <=? m then m - 256 else m).
  { unfold neg_fix. change (Z.shiftl 1 (8 - 1)) with (2 ^ 7). change (Z.shiftl 1 8) with 256.
    destruct (128 <=? m) eqn:E.
    - replace (Z.land m (2 ^ 7) =? 0) with false; [cbn [negb]; lia|].
      symmetry. apply Z.eqb_neq. intros X. assert (T : Z.testbit (Z.land m (2 ^ 7)) 7 = false) by (rewrite X; apply Z.bits_0).
      rewrite Z.land_spec, Z.pow2_bits_true, andb_true_r in T by lia.
      rewrite Z.testbit_false in T by lia. change (2 ^ 7) with 128 in T.
      assert (m / 128 = 1) by (symmetry; apply Z.div_unique with (m - 128); lia). rewrite H in T. discriminate.
    - replace (Z.land m (2 ^ 7) =? 0) with true; [reflexivity|]. symmetry. apply Z.eqb_eq.
      apply Z.bits_inj'. intros n N. rewrite Z.land_spec, Z.bits_0, Z.pow2_bits_eqb by lia.
      destruct (Z.eqb_spec 7 n) as [<-|]; [|apply andb_false_r]. rewrite andb_true_r.
      rewrite Z.testbit_false by lia. change (2 ^ 7) with 128. rewrite Z.div_small by lia. reflexivity. }
  rewrite F. unfold struct_pack1. cbn [sf_signed sf_size]. change (2 ^ (8 * Z.of_nat 1 - 1)) with 128.
  replace ((- (128) <=? (if 128 <=? m then m - 256 else m)) && ((if 128 <=? m then m - 256 else m) <? 128)) with true
    by (destruct (128 <=? m) eqn:E; lia).
  cbn [rbind int_bytes le_bytes]. rewrite app_nil_r. f_equal. f_equal.
  destruct (128 <=? m).
  - replace (m - 256) with (m + (-1) * 256) by ring. rewrite Z_mod_plus_full. apply Z.mod_small. exact B.
  - apply Z.mod_small. exact B.
Qed.
Lemma pack_word : forall v, 0 <= v < 65536 -> pack_le16u [Some v] = Ok [v mod 256; v / 256].
Proof.
  intros v R. unfold pack_le16u. rewrite (pack_one false FH 0xffff v eq_refl eq_refl R). cbn [int_bytes].
  change (sf_size FH) with 2%nat. rewrite le2_bytes by exact R. reflexivity.
Qed.

Lemma operand_result : forall o t s s1 b, 0 <= pc s ->
  lr_operand o t s = (s1, Ok b) <-> exists ds, stored lr_p s 1 (to_field o) t b ds /\ s1 = referring s ds.
Proof.
  intros o t s s1 b P. destruct o; cbn [lr_operand to_field].
  - unfold bind. rewrite poil_eq. cbn [ld_label ld_bits_size ld_relative orb negb Z.eqb].
    destruct (parse_integer lr_p (labels s) t 8 false) as [[v|]|e] eqn:E.
    + unfold lift. pose proof (unum_range _ _ _ _ _ E ltac:(lia)) as R. change (2 ^ 8) with 256 in R.
      rewrite pack_byte1 by exact R. split.
      * intros X. injection X as <- <-. exists []. split; [apply st_byte; exact E|reflexivity].
      * intros (ds & S & ->). inversion S; subst; unfold num, not_num in *; [|congruence].
        replace v0 with v by congruence. reflexivity.
    + unfold lift. rewrite pack_byte1 by lia. split.
      * intros X. injection X as <- <-. exists [ref t 1 8 1 0]. split; [apply st_byte_name; exact E|reflexivity].
      * intros (ds & S & ->). inversion S; subst; unfold num, not_num in *; [congruence|]. reflexivity.
    + split; [discriminate|]. intros (ds & S & ->). inversion S; subst; unfold num, not_num in *; congruence.
  - unfold bind, get. rewrite poil_eq. cbn [ld_label ld_bits_size ld_relative orb].
    replace (pc s + 2 =? 0) with false by lia. cbn [negb].
    destruct (parse_integer lr_p (labels s) t 8 true) as [[v|]|e] eqn:E.
    + unfold lift. pose proof (num_range _ _ _ _ _ _ E ltac:(lia)) as R. change (2 ^ 8) with 256 in R. change (2 ^ (8 - 1)) with 128 in R.
      rewrite neg_pack by lia. split.
      * intros X. injection X as <- <-. exists []. split; [apply st_disp; exact E|reflexivity].
      * intros (ds & S & ->). inversion S; subst; unfold num, not_num in *; [|congruence].
        replace v0 with v by congruence. reflexivity.
    + unfold lift. rewrite neg_pack by lia. split.
      * intros X. injection X as <- <-. exists [ref t 1 8 1 (pc s + 1 + 1)]. split; [apply st_disp_name; exact E|].
        unfold ref. replace (pc s + 1 + 1) with (pc s + 2) by ring. reflexivity.
      * intros (ds & S & ->). inversion S; subst; unfold num, not_num in *; [congruence|].
        unfold ref. replace (pc s + 1 + 1) with (pc s + 2) by ring. reflexivity.
    + split; [discriminate|]. intros (ds & S & ->). inversion S; subst; unfold num, not_num in *; congruence.
  - unfold bind. rewrite poil_eq. cbn [ld_label ld_bits_size ld_relative orb negb Z.eqb].
    destruct (parse_integer lr_p (labels s) t 16 false) as [[v|]|e] eqn:E.
    + unfold lift. pose proof (unum_range _ _ _ _ _ E ltac:(lia)) as R. change (2 ^ 16) with 65536 in R.
      rewrite pack_word by exact R. split.
      * intros X. injection X as <- <-. exists []. split; [apply st_word; exact E|reflexivity].
      * intros (ds & S & ->). inversion S; subst; unfold num, not_num in *; [|congruence].
        replace v0 with v by congruence. reflexivity.
    + unfold lift. rewrite pack_word by lia. split.
      * intros X. injection X as <- <-. exists [ref t 2 16 1 0]. split; [apply st_word_name; exact E|reflexivity].
      * intros (ds & S & ->). inversion S; subst; unfold num, not_num in *; [congruence|]. reflexivity.
    + split; [discriminate|]. intros (ds & S & ->). inversion S; subst; unfold num, not_num in *; congruence.
Qed.

(** ** The chains of tests *)

Definition piece_pos (p : piece) : bool := match p with Reg 0 | Tok 0 => false | _ => true end.
Definition op_ok (b : branch) : bool :=
  match br_operand b with
  | None => true
  | Some (_, S j, _) => forallb (fun ps => Nat.ltb j (length ps)) (br_pats b)
  | Some (_, O, _) => false
  end.
Lemma key_t0 : forall (t0 : str) (ops : list str) k, forallb piece_pos k = true ->
  key_of (t0 :: ops) k = key_of (([] : str) :: ops) k.
Proof.
  intros t0 ops k H. unfold key_of. f_equal. apply map_ext_in. intros p I. rewrite forallb_forall in H. apply H in I.
  destruct p as [s|[|i]|[|i]]; try discriminate; reflexivity.
Qed.
Lemma find_t0 : forall kw (t0 : str) (ops : list str) bs, forallb (fun b => forallb piece_pos (pieces_of b)) bs = true ->
  find (br_holds kw (t0 :: ops)) bs = find (br_holds kw (([] : str) :: ops)) bs.
Proof.
  intros kw t0 ops bs H. induction bs as [|b bs IH]; [reflexivity|]. cbn [forallb find] in *.
  apply andb_prop in H. destruct H as [H1 H2]. rewrite (IH H2).
  assert (E : br_holds kw (t0 :: ops) b = br_holds kw (([] : str) :: ops) b).
  { unfold br_holds. f_equal. destruct (br_needs b) as [k|] eqn:N; [|reflexivity]. rewrite (key_t0 t0 ops k); [reflexivity|].
    unfold pieces_of in H1. rewrite N, forallb_app in H1. apply andb_prop in H1. tauto. }
  rewrite E. reflexivity.
Qed.
Lemma lr_eke_ok : forall A (m : M A) s s1 a, lr_except_key_error m s = (s1, Ok a) <-> m s = (s1, Ok a).
Proof.
  intros. unfold lr_except_key_error. destruct (m s) as [s2 [x|[e|e]]]; try tauto. destruct e; try tauto. split; discriminate.
Qed.

Definition table_bytes (kw : list (str * Z)) : bool := forallb (fun '(_, c) => (0 <=? c) && (c <? 256)) kw.
Lemma build_result : forall pre bs kw t0 ops s s1 b, 0 <= pc s ->
  (pre = [] \/ pre = [0xCB] /\ forallb (fun b => match br_operand b with None => true | _ => false end) bs = true) ->
  forallb (fun b => forallb piece_pos (pieces_of b) && op_ok b) bs = true -> table_bytes kw = true ->
  build pre bs kw (t0 :: ops) s = (s1, Ok (Some b)) <->
  exists w vs ds, sel pre bs kw ops = Some (w, vs) /\ laid_out lr_p s w [] (picked ops vs) b ds /\ s1 = referring s ds.
Proof.
  intros pre bs kw t0 ops s s1 b P PRE G T. unfold build. rewrite lr_eke_ok. unfold sel.
  assert (G1 : forallb (fun b => forallb piece_pos (pieces_of b)) bs = true).
  { apply forallb_forall. intros x I. rewrite forallb_forall in G. apply G in I. apply andb_prop in I. tauto. }
  rewrite (find_t0 kw t0 ops bs G1).
  destruct (find (br_holds kw (([] : str) :: ops)) bs) as [br|] eqn:F.
  2:{ unfold ret. split; [discriminate|]. intros (w & vs & ds & X & _). discriminate. }
  apply find_some in F. destruct F as [I H]. rewrite forallb_forall in G. apply G in I as GI. apply andb_prop in GI. destruct GI as [GP GO].
  assert (K : key_of (t0 :: ops) (br_key br) = key_of (([] : str) :: ops) (br_key br)).
  { apply key_t0. unfold pieces_of in GP. rewrite forallb_app in GP. apply andb_prop in GP. tauto. }
  rewrite K. set (key := key_of (([] : str) :: ops) (br_key br)) in *.
  assert (FIN : forall o (s2 s3 : st) b', (let! code := lr_kwarg kw key in
        let! b := lift (pack_byte (map Some (pre ++ [code]))) in ret (Some (b ++ o))) s2 = (s3, Ok (Some b')) <->
      exists c, dget str_eqb kw key = Some c /\ s3 = s2 /\ b' = (pre ++ [c]) ++ o).
  { intros o s2 s3 b'. unfold bind, lr_kwarg. destruct (dget str_eqb kw key) as [c|] eqn:D.
    2:{ split; [discriminate|]. intros (c & X & _). discriminate. }
    assert (C : 0 <= c < 256).
    { apply (dget_In str_eqb str_eqb_eq) in D. unfold table_bytes in T. rewrite forallb_forall in T. apply T in D. lia. }
    assert (PB : pack_byte (map Some (pre ++ [c])) = Ok (pre ++ [c])).
    { destruct PRE as [-> |[-> _]]; cbn [app map]; [apply pack_byte1; exact C|apply pack_byte2; lia]. }
    unfold ret, lift. rewrite PB. split.
    - intros X. injection X as <- <-. eauto.
    - intros (c' & X & -> & ->). injection X as <-. reflexivity. }
  destruct (br_operand br) as [[[o [|j]] d]|] eqn:O.
  - unfold op_ok in GO. rewrite O in GO. discriminate.
  - assert (PRE0 : pre = []).
    { destruct PRE as [-> |[-> X]]; [reflexivity|]. rewrite forallb_forall in X. apply X in I. rewrite O in I. discriminate. }
    subst pre. unfold op_ok in GO. rewrite O in GO.
    assert (L : (j < length ops)%nat).
    { unfold br_holds in H. apply andb_prop in H. destruct H as [H _]. apply existsb_exists in H. destruct H as (ps & J & M).
      apply (proj1 (imatch_cons _ _ _)) in M. rewrite forallb_forall in GO. apply GO in J. apply Nat.ltb_lt in J.
      assert (length ps = length ops) by (clear -M; induction M; cbn; auto). lia. }
    assert (N : nth_error ops j = Some (nth j ops [])) by (apply nth_error_nth'; exact L).
    unfold bind at 1. unfold bind at 1. unfold tok_at. cbn [nth_error]. rewrite N. unfold ret at 1.
    destruct (lr_operand o (skipn d (nth j ops [])) s) as [s2 [bo|e]] eqn:R.
    + rewrite FIN. split.
      * intros (c & D & -> & ->). apply operand_result in R; [|exact P]. destruct R as (ds & S & ->).
        rewrite D. exists [c], [(to_field o, j, d)], ds. split; [reflexivity|]. split; [|reflexivity].
        cbn [picked map app]. replace bo with (bo ++ []) by apply app_nil_r. apply (lo_one lr_p s [c] []). exact S.
      * intros (w & vs & ds & D & LO & ->). destruct (dget str_eqb kw key) as [c|]; [|discriminate].
        injection D as <- <-. cbn [app picked map pred] in LO. inversion LO; subst. rewrite app_nil_r.
        assert (R2 : lr_operand o (skipn d (nth j ops [])) s = (referring s ds, Ok b0)).
        { apply operand_result; [exact P|]. eexists. split; [|reflexivity]. match goal with X : stored _ _ _ _ _ _ _ |- _ => exact X end. }
        rewrite R2 in R. injection R as <- <-. exists c. split; [reflexivity|]. split; reflexivity.
    + split; [discriminate|]. intros (w & vs & ds & D & LO & ->). destruct (dget str_eqb kw key) as [c|]; [|discriminate].
      injection D as <- <-. cbn [app picked map pred] in LO. inversion LO; subst.
      assert (R2 : lr_operand o (skipn d (nth j ops [])) s = (referring s ds, Ok b0)).
      { apply operand_result; [exact P|]. eexists. split; [|reflexivity]. match goal with X : stored _ _ _ _ _ _ _ |- _ => exact X end. }
      congruence.
  - unfold bind at 1. unfold ret at 1. rewrite FIN. split.
    + intros (c & D & -> & ->). rewrite D. exists (pre ++ [c]), [], []. split; [reflexivity|]. split; [|reflexivity].
      apply lo_none.
    + intros (w & vs & ds & D & LO & ->). destruct (dget str_eqb kw key) as [c|]; [|discriminate].
      injection D as <- <-. inversion LO; subst. eauto.
Qed.
