(** The texts of places can be read back. *)
From Coq Require Import Lia.
From Verif Require Import Py PyFacts Tokenizer Report SpecLink SpecParse DigitFacts ParseFacts SpecReport.
Local Open Scope Z_scope.

(** ** repr(str) *)

(** Reads one character of a repr. *)
Definition hex_of (c : ascii) : Z := if ord c <? 58 then ord c - 48 else ord c - 87.
Definition read_chr (s : str) : option (ascii * str) :=
  match s with
  | [] => None
  | c :: t =>
      if Ascii.eqb c backslash then
        match t with
        | [] => None
        | d :: u =>
            if Ascii.eqb d "n" then Some (nl, u)
            else if Ascii.eqb d "r" then Some (cr, u)
            else if Ascii.eqb d "t" then Some (tab, u)
            else if Ascii.eqb d "x" then
              match u with
              | h :: l :: v => Some (ascii_of_N (Z.to_N (hex_of h * 16 + hex_of l)), v)
              | _ => None
              end
            else Some (d, u)
        end
      else Some (c, t)
  end.

Definition quote (q : ascii) : Prop := q = squote \/ q = dquote.

Lemma read_repr : forall q a x, quote q -> read_chr (repr_chr q a ++ x) = Some (a, x).
Proof.
  intros q a x [-> | ->]; destruct a as [[|] [|] [|] [|] [|] [|] [|] [|]]; reflexivity.
Qed.
Lemma repr_head : forall q a, quote q -> exists c t, repr_chr q a = c :: t /\ c <> q.
Proof.
  intros q a [-> | ->]; destruct a as [[|] [|] [|] [|] [|] [|] [|] [|]];
    eexists; eexists; (split; [reflexivity|discriminate]).
Qed.
Lemma repr_chr_inj : forall q a b x y, quote q -> repr_chr q a ++ x = repr_chr q b ++ y -> a = b /\ x = y.
Proof.
  intros q a b x y Q E. pose proof (read_repr q a x Q) as R. rewrite E, read_repr in R by exact Q.
  injection R as -> ->. auto.
Qed.
Lemma repr_chars_inj : forall q s s' x y, quote q ->
  flat_map (repr_chr q) s ++ q :: x = flat_map (repr_chr q) s' ++ q :: y -> s = s' /\ x = y.
Proof.
  intros q s s' x y Q. revert s'. induction s as [|a s IH]; intros [|b s'] E; cbn [flat_map] in E.
  - injection E as ->. auto.
  - exfalso. destruct (repr_head q b Q) as (c & t & R & N). rewrite R in E. injection E as E _. congruence.
  - exfalso. destruct (repr_head q a Q) as (c & t & R & N). rewrite R in E. injection E as E _. congruence.
  - rewrite <- !app_assoc in E. apply repr_chr_inj in E; [|exact Q]. destruct E as [-> E].
    apply IH in E. destruct E as [-> ->]. auto.
Qed.
Lemma py_repr_inj : forall a b x y, py_repr a ++ x = py_repr b ++ y -> a = b /\ x = y.
Proof.
  intros a b x y E. unfold py_repr in E. cbv zeta in E. cbn [app] in E. injection E as Q E.
  rewrite Q in E. rewrite <- !app_assoc in E. cbn [app] in E.
  apply repr_chars_inj in E; [exact E|]. unfold quote. destruct (chr_in squote b && negb (chr_in dquote b)); auto.
Qed.
Lemma py_repr_head : forall a, exists q t, py_repr a = q :: t /\ quote q.
Proof.
  intros a. unfold py_repr. cbv zeta. eexists. eexists. split; [reflexivity|].
  unfold quote. destruct (chr_in squote a && negb (chr_in dquote a)); auto.
Qed.

(** ** str(list) *)

Lemma join_inj : forall l l' x y,
  join #", " (map py_repr l) ++ "]"%char :: x = join #", " (map py_repr l') ++ "]"%char :: y -> l = l' /\ x = y.
Proof.
  assert (H : forall a t x, join #", " (map py_repr (a :: t)) ++ "]"%char :: x =
    py_repr a ++ match t with [] => "]"%char :: x
                 | _ => #", " ++ join #", " (map py_repr t) ++ "]"%char :: x end).
  { intros a [|b t] x; [reflexivity|]. cbn [map join]. rewrite <- !app_assoc. reflexivity. }
  induction l as [|a t IH]; intros [|b t'] x y E.
  - injection E as ->. auto.
  - exfalso. rewrite H in E. destruct (py_repr_head b) as (q & u & R & [-> | ->]); rewrite R in E; discriminate.
  - exfalso. rewrite H in E. destruct (py_repr_head a) as (q & u & R & [-> | ->]); rewrite R in E; discriminate.
  - rewrite !H in E. apply py_repr_inj in E. destruct E as [-> E].
    destruct t as [|a' t], t' as [|b' t']; try discriminate E.
    + injection E as ->. auto.
    + apply app_inv_head in E. apply IH in E. destruct E as [-> ->]. auto.
Qed.
Lemma str_of_list_inj : forall l l' x y, str_of_list l ++ x = str_of_list l' ++ y -> l = l' /\ x = y.
Proof.
  intros l l' x y E. unfold str_of_list in E. rewrite <- !app_assoc in E. apply app_inv_head in E.
  apply join_inj in E. exact E.
Qed.

(** ** str(int) *)

Lemma prefix_inj : forall A (P : A -> Prop) d d' c c' x y, Forall P d -> Forall P d' -> ~ P c -> ~ P c' ->
  d ++ c :: x = d' ++ c' :: y -> d = d' /\ c :: x = c' :: y.
Proof.
  intros A P. induction d as [|a d IH]; intros [|b d'] c c' x y F F' N N' E; cbn [app] in E.
  - auto.
  - exfalso. injection E as -> _. inversion F'; subst. contradiction.
  - exfalso. injection E as <- _. inversion F; subst. contradiction.
  - injection E as -> E. inversion F; inversion F'; subst. edestruct IH as [-> G]; [| | | |exact E|]; auto.
Qed.

Definition in_number (c : ascii) : Prop := c = "-"%char \/ ascii_digit (ord c).
Lemma str_of_int_chars : forall n, Forall in_number (str_of_int n).
Proof.
  assert (H : forall n, 0 <= n -> Forall in_number (nat_digits 10 n)).
  { intros n N. destruct (nat_digits_spec n N) as (D & _ & _). rewrite Forall_map in D.
    revert D. apply Forall_impl. intros a D. right. exact D. }
  intros n. unfold str_of_int. destruct (Z.ltb_spec n 0); [constructor; [left; reflexivity|]|]; apply H; lia.
Qed.
Lemma str_of_int_inj : forall n m, str_of_int n = str_of_int m -> n = m.
Proof.
  assert (H : forall n m, 0 <= n -> 0 <= m -> nat_digits 10 n = nat_digits 10 m -> n = m).
  { intros n m N M E. destruct (nat_digits_spec n N) as (_ & D & _). destruct (nat_digits_spec m M) as (_ & D' & _).
    rewrite <- D, <- D', E. reflexivity. }
  assert (G : forall n m, 0 <= n -> nat_digits 10 n <> "-"%char :: m).
  { intros n m N E. destruct (nat_digits_spec n N) as (D & _ & _). rewrite E in D. inversion D as [|? ? B _]; subst.
    revert B. unfold ascii_digit. change (ord "-") with 45. lia. }
  intros n m E. unfold str_of_int in E. destruct (Z.ltb_spec n 0), (Z.ltb_spec m 0).
  - injection E as E. apply H in E; lia.
  - symmetry in E. apply G in E; [contradiction|lia].
  - apply G in E; [contradiction|lia].
  - apply H in E; lia.
Qed.

(** ** The place *)

Lemma colon_not_in_number : ~ in_number ":"%char.
Proof. intros [E|E]; [discriminate|]. revert E. unfold ascii_digit. change (ord ":") with 58. lia. Qed.
Lemma space_not_in_number : ~ in_number " "%char.
Proof. intros [E|E]; [discriminate|]. revert E. unfold ascii_digit. change (ord " ") with 32. lia. Qed.

Lemma place_text_inj : forall f f' l l' t t' x y,
  (forall n, f = Some n -> ~ In ":"%char n) -> (forall n, f' = Some n -> ~ In ":"%char n) ->
  place_text f l t ++ x = place_text f' l' t' ++ y -> f = f' /\ l = l' /\ t = t' /\ x = y.
Proof.
  intros f f' l l' t t' x y F F' E. unfold place_text in E. rewrite <- !app_assoc in E. apply app_inv_head in E.
  assert (K : str_of_int l = str_of_int l' /\
    match f with Some n => #" of " ++ n | None => [] end ++ #": " ++ str_of_list t ++ x =
    match f' with Some n => #" of " ++ n | None => [] end ++ #": " ++ str_of_list t' ++ y).
  { destruct f as [n|], f' as [n'|];
      (apply (prefix_inj _ in_number) in E;
       [exact E|apply str_of_int_chars|apply str_of_int_chars| |];
       first [apply colon_not_in_number|apply space_not_in_number]). }
  destruct K as [L K]. apply str_of_int_inj in L. subst l'.
  assert (J : f = f' /\ str_of_list t ++ x = str_of_list t' ++ y).
  { destruct f as [n|], f' as [n'|];
      try (exfalso; apply (f_equal (@hd ascii "a"%char)) in K; vm_compute in K; discriminate K).
    - rewrite <- !app_assoc in K. apply app_inv_head in K.
      change (#": ") with ([":"%char] ++ [" "%char]) in K. rewrite <- !app_assoc in K. cbn [app] in K.
      apply (prefix_inj _ (fun c => c <> ":"%char)) in K;
        [|apply Forall_forall; intros c I ->; exact (F n eq_refl I)
         |apply Forall_forall; intros c I ->; exact (F' n' eq_refl I)|tauto|tauto].
      destruct K as [-> K]. apply (f_equal (fun z => tl (tl z))) in K. cbn [tl] in K. auto.
    - apply (app_inv_head #": ") in K. auto. }
  destruct J as [-> J]. apply str_of_list_inj in J. destruct J as [-> ->]. auto.
Qed.

(** ** One line of visible characters *)

Lemma repr_chr_visible : forall q a, quote q -> Forall visible (repr_chr q a).
Proof.
  intros q a [-> | ->]; destruct a as [[|] [|] [|] [|] [|] [|] [|] [|]];
    repeat constructor; cbv; discriminate.
Qed.

Lemma py_repr_visible : forall a, Forall visible (py_repr a).
Proof.
  intros a. unfold py_repr. cbv zeta. set (q := if chr_in squote a && negb (chr_in dquote a) then dquote else squote).
  assert (Q : quote q) by (unfold q, quote; destruct (chr_in squote a && negb (chr_in dquote a)); auto).
  assert (V : visible q) by (destruct Q as [-> | ->]; split; cbv; discriminate).
  constructor; [exact V|]. apply Forall_app. split; [|constructor; [exact V|constructor]].
  clearbody q. induction a as [|b' a IH]; cbn [flat_map]; [constructor|]. apply Forall_app. split; [apply repr_chr_visible, Q|exact IH].
Qed.
Lemma join_visible : forall l, Forall visible (join #", " (map py_repr l)).
Proof.
  induction l as [|a [|b t] IH]; cbn [map join]; [constructor|apply py_repr_visible|].
  apply Forall_app. split; [apply py_repr_visible|]. apply Forall_app. split; [|exact IH].
  repeat constructor; cbv; discriminate.
Qed.
Lemma number_visible : forall n, Forall visible (str_of_int n).
Proof.
  intros n. eapply Forall_impl; [|apply str_of_int_chars]. intros c [-> |D]; [split; cbv; discriminate|].
  unfold ascii_digit in D. unfold visible. lia.
Qed.
Lemma place_visible : forall f l t, (forall n, f = Some n -> Forall visible n) -> Forall visible (place_text f l t).
Proof.
  intros f l t F. unfold place_text, str_of_list.
  repeat (apply Forall_app; split); try apply number_visible; try apply join_visible;
    try (destruct f as [n|]; [apply Forall_app; split; [|apply F; reflexivity]|]);
    repeat constructor; cbv; discriminate.
Qed.

(** ** Lines of the log *)

Lemma numeral_fun : forall base s v w, numeral base s v -> numeral base s w -> v = w.
Proof.
  intros base s v w V W. apply numeral_chars in V. apply numeral_chars in W.
  destruct V as (_ & _ & ->), W as (_ & _ & ->). reflexivity.
Qed.
Lemma numeral_no_chr : forall base s v c, numeral base s v -> is_base_digit base c = false -> ~ In c s.
Proof.
  intros base s v c H N I. apply numeral_chars in H. destruct H as (_ & F & _).
  rewrite Forall_forall in F. rewrite (F c I) in N. discriminate.
Qed.
Lemma hex_texts_fun : forall bs bs' ts, hex_texts bs ts -> hex_texts bs' ts -> bs = bs'.
Proof.
  intros bs bs' ts H. revert bs'. induction H as [|v t bs ts (ds & -> & _ & N) H IH]; intros bs' H'; inversion H' as [|w u bs2 ts2 (ds' & E & _ & N') H2]; subst; [reflexivity|].
  apply (app_inv_head #"0x") in E. subst ds'. f_equal; [eapply numeral_fun; eauto|apply IH; assumption].
Qed.
Definition hexish (c : ascii) : Prop := c <> ","%char /\ c <> ")"%char.
Lemma hex_texts_chars : forall bs ts, hex_texts bs ts -> Forall (Forall hexish) ts.
Proof.
  induction 1 as [|v t bs ts (ds & -> & _ & N) H IH]; constructor; [|exact IH].
  apply Forall_app. split; [repeat constructor; discriminate|].
  apply Forall_forall. intros c I. split; intros ->; revert I; eapply numeral_no_chr; eauto; reflexivity.
Qed.
Lemma hex_texts_some : forall bs ts, hex_texts bs ts -> Forall (fun t => t <> []) ts.
Proof. induction 1 as [|v t bs ts (ds & -> & _ & N) H IH]; constructor; [discriminate|exact IH]. Qed.
Lemma commas_inj : forall ts ts' x y, Forall (Forall hexish) ts -> Forall (Forall hexish) ts' ->
  Forall (fun t => t <> []) ts -> Forall (fun t => t <> []) ts' ->
  join #"," ts ++ ")"%char :: x = join #"," ts' ++ ")"%char :: y -> ts = ts' /\ x = y.
Proof.
  assert (H : forall a t x, join #"," (a :: t) ++ ")"%char :: x =
    a ++ match t with [] => ")"%char :: x | _ => ","%char :: join #"," t ++ ")"%char :: x end).
  { intros a [|b t] x; [reflexivity|]. cbn [join]. rewrite <- !app_assoc. reflexivity. }
  assert (Z : forall a t x y, Forall hexish a -> a <> [] -> join #"," (a :: t) ++ ")"%char :: x <> ")"%char :: y).
  { intros [|c a] t x y F N E; [congruence|]. rewrite H in E. injection E as -> _. inversion F as [|? ? [_ B] _]; subst. congruence. }
  induction ts as [|a t IH]; intros [|b t'] x y F F' N N' E; cbn [join app] in E.
  - injection E as ->. auto.
  - exfalso. symmetry in E. inversion F'; inversion N'; subst. eapply Z; [| |exact E]; assumption.
  - exfalso. inversion F; inversion N; subst. eapply Z; [| |exact E]; assumption.
  - change (join #"," (a :: t) ++ ")"%char :: x = join #"," (b :: t') ++ ")"%char :: y) in E. rewrite !H in E.
    inversion F as [|? ? Fa Ft]; inversion F' as [|? ? Fb Ft']; inversion N as [|? ? Na Nt]; inversion N' as [|? ? Nb Nt']; subst.
    assert (K : a = b /\ match t with [] => ")"%char :: x | _ => ","%char :: join #"," t ++ ")"%char :: x end =
                        match t' with [] => ")"%char :: y | _ => ","%char :: join #"," t' ++ ")"%char :: y end).
    { destruct t, t'; (apply (prefix_inj _ hexish) in E; [exact E|assumption|assumption| |]); intros [B1 B2]; congruence. }
    destruct K as [-> K]. destruct t as [|a' t], t' as [|b' t']; try discriminate K.
    + injection K as ->. auto.
    + apply (f_equal (@tl ascii)) in K. cbn [tl] in K. apply IH in K; auto. destruct K as [-> ->]. auto.
Qed.
Lemma log_entry_inj : forall f f' l l' t t' n n' bs bs' line,
  (forall m, f = Some m -> ~ In ":"%char m) -> (forall m, f' = Some m -> ~ In ":"%char m) ->
  log_entry (place_text f l t) n bs line -> log_entry (place_text f' l' t') n' bs' line ->
  f = f' /\ l = l' /\ t = t' /\ bs = bs' /\ (bs <> [] -> n = n').
Proof.
  intros f f' l l' t t' n n' bs bs' line F F' H H'.
  assert (C : forall w n bs line, log_entry w n bs line -> (bs = [] /\ line = #"not assembled " ++ w) \/
    (bs <> [] /\ exists ts off, hex_texts bs ts /\ numeral 16 off n /\
       line = #"assembled " ++ w ++ #" -> (" ++ join #"," ts ++ #") at 0x" ++ off)).
  { intros w n0 bs0 line0 []; [left|right]; eauto 7. }
  destruct (C _ _ _ _ H) as [(-> & E)|(B & ts & off & T & O & E)];
    destruct (C _ _ _ _ H') as [(-> & E')|(B' & ts' & off' & T' & O' & E')]; clear C H H'; rewrite E' in E; clear E'.
  - apply app_inv_head in E. rewrite <- (app_nil_r (place_text f' l' t')), <- (app_nil_r (place_text f l t)) in E.
    apply place_text_inj in E; auto. destruct E as (-> & -> & -> & _). repeat split; auto. congruence.
  - discriminate E.
  - discriminate E.
  - apply app_inv_head in E. apply place_text_inj in E; auto. destruct E as (-> & -> & -> & E).
    apply (app_inv_head #" -> (") in E. apply commas_inj in E;
      eauto using hex_texts_chars, hex_texts_some. destruct E as [-> E]. apply (app_inv_head #" at 0x") in E. subst off'.
    split; [reflexivity|]. split; [reflexivity|]. split; [reflexivity|]. split; [eapply hex_texts_fun; eauto|].
    intros _. eapply numeral_fun; eauto.
Qed.
