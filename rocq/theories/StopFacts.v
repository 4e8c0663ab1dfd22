(** Facts about linking that fails. *)
From Coq Require Import Lia.
From Verif Require Import Py PyFacts Utils State Assembler SpecUtils UtilsFacts SpecParse ParseFacts
  SpecLink LinkFacts PropsUtils SpecStop.
Local Open Scope Z_scope.

Lemma perform_error : forall l out e, snd (perform out l) = Some e -> e = PExc IndexError.
Proof.
  induction l as [|[k c] l IH]; intros out e H; cbn [perform] in H; [discriminate|].
  destruct (at_index out k) as [old|e1] eqn:A.
  - apply at_index_inv in A. destruct A as [R A]. rewrite set_index_ok in H by auto. eapply IH; eauto.
  - unfold at_index in A. cbn [snd] in H. injection H as <-. destruct (k <? 0); [congruence|].
    destruct (nth_error out (Z.to_nat k)); congruence.
Qed.
Lemma performs_error : forall l s e, snd (performs l s) = Err e ->
  e = PExc IndexError /\ ~ inside (zlen (assembled s)) l.
Proof.
  intros l s e H. rewrite performs_eq in H. cbn [snd] in H.
  destruct (snd (perform (assembled s) l)) as [x|] eqn:P; [|discriminate]. injection H as ->. split.
  - eapply perform_error; eauto.
  - intros I. apply perform_iff in I. congruence.
Qed.
Lemma performs_outside : forall l s, ~ inside (zlen (assembled s)) l -> snd (performs l s) = Err (PExc IndexError).
Proof.
  intros l s N. rewrite performs_eq. cbn [snd]. destruct (snd (perform (assembled s) l)) as [x|] eqn:P.
  - apply perform_error in P. subst x. reflexivity.
  - exfalso. apply N. apply perform_iff. exact P.
Qed.

Lemma resolve_stops : forall p s a d e, ref_ok (a, d) ->
  snd (resolve_one p dummy_linker a d s) = Err e -> stops p (labels s) (zlen (assembled s)) a d e.
Proof.
  intros p s a d e RO H. pose proof RO as (B & AL & BT & HK). cbn [fst snd] in B, AL, BT, HK.
  assert (D : (exists abs v, target p (labels s) d abs v) \/ stops p (labels s) (zlen (assembled s)) a d e).
  { clear B AL BT HK. unfold resolve_one, m_label_absolute in H. unfold bind at 1 in H.
    destruct (label_absolute p (labels s) (ld_label d)) as [[abs|]|x] eqn:A.
    - destruct (ld_relative d =? 0) eqn:R.
      + apply Z.eqb_eq in R. left. exists abs, abs. apply tg_absolute; auto.
      + apply Z.eqb_neq in R. cbn [negb] in H. unfold bind at 1 in H.
        destruct (label_relative p (labels s) (ld_label d) (ld_relative d)) as [[v|]|x] eqn:V.
        * left. exists abs, v. apply tg_relative; auto.
        * exfalso. unfold label_relative, label_absolute, label_by_name_with in A, V.
          destruct (get_math_formula (ld_label d)) as [[nm pre] post].
          destruct (dget str_eqb (labels s) nm); [|discriminate A].
          destruct (apply_math_formula _ _ _ _ _ (label_address l - ld_relative d)); discriminate V.
        * cbn [snd] in H. injection H as ->. right. eapply st_distance; eauto.
    - right. destruct (ld_relative d =? 0) eqn:R; cbn [negb] in H.
      + cbn in H. injection H as <-. apply st_unknown. exact A.
      + unfold bind at 1 in H. rewrite (relative_none _ _ _ _ A) in H. cbn in H. injection H as <-.
        apply st_unknown. exact A.
    - right. cbn [snd] in H. injection H as ->. apply st_formula. exact A. }
  destruct D as [(abs & t & T)|D]; [|exact D].
  assert (C : (exists x, fault p (labels s) d x) \/ exists ch, ref_changes p (labels s) (a, d) ch).
  { destruct HK as [HK|[w HK]]; [|right; eexists; eapply rc_text; eauto].
    destruct (Z.eq_dec (abs mod ld_alignment d) 0) as [A|A].
    2:{ left. eexists. eapply f_alignment; eauto; [lia|]. rewrite aligned_mod by auto. exact A. }
    apply aligned_mod in A; [|exact AL].
    assert (R : in_range d t \/ ~ in_range d t).
    { unfold in_range. destruct (ld_relative d =? 0); lia. }
    destruct R as [R|R].
    2:{ left. destruct (Z.eq_dec (ld_relative d) 0) as [Z0|NZ].
        - destruct (Z_lt_le_dec t 0) as [L|L]; eexists.
          + eapply f_backward; eauto; lia.
          + eapply f_range; eauto; lia.
        - eexists. eapply f_range; eauto; [lia|]. intros; contradiction. }
    destruct (ld_bits d) as [b|] eqn:BB.
    - set (u := match ld_filter d with Some f => f t | None => t end).
      assert (F : field_ok (b, u) \/ ~ field_ok (b, u)) by (unfold field_ok; lia).
      destruct F as [F|F].
      + right. destruct (C03_pack_bits_exact [(b, u)] 0) as [P1 _].
        { constructor; [|constructor]. apply BT. reflexivity. }
        destruct P1 as (v & E & _); [constructor; auto|].
        eexists. apply (rc_field p (labels s) a d v HK). exists abs, t. split; [exact T|]. split; [exact A|]. split; [exact R|].
        apply encoded_pack; [rewrite BB; exact BT|]. rewrite BB. exact E.
      + left. eexists. eapply f_bits; eauto; lia.
    - right. eexists. eapply (rc_field p (labels s) a d _ HK). exists abs, t. split; [exact T|]. split; [exact A|]. split; [exact R|].
      unfold encoded. rewrite BB. reflexivity. }
  destruct C as [[x F]|[ch C]].
  - rewrite (resolve_fault _ _ _ _ _ F B) in H. cbn [snd] in H. injection H as <-. apply st_fault. exact F.
  - pose proof (resolve_changes p s (a, d) ch RO C) as E. cbn [fst snd] in E. rewrite E in H.
    apply performs_error in H. destruct H as [-> N]. eapply st_outside; eauto.
Qed.

Lemma stops_resolve : forall p s a d e, ref_ok (a, d) -> stops p (labels s) (zlen (assembled s)) a d e ->
  snd (resolve_one p dummy_linker a d s) = Err e.
Proof.
  intros p s a d e RO H. pose proof RO as (B & _). cbn [fst snd] in B.
  destruct H as [e F|A|e A|v e R A V|ch C N].
  - rewrite (resolve_fault _ _ _ _ _ F B). reflexivity.
  - unfold resolve_one, m_label_absolute. unfold bind at 1. rewrite A.
    destruct (ld_relative d =? 0); cbn [negb]; [reflexivity|].
    unfold bind at 1. rewrite (relative_none _ _ _ _ A). reflexivity.
  - unfold resolve_one, m_label_absolute. unfold bind at 1. rewrite A. reflexivity.
  - unfold resolve_one, m_label_absolute. unfold bind at 1. rewrite A.
    rewrite (proj2 (Z.eqb_neq _ _) R). cbn [negb]. unfold bind at 1. rewrite V. reflexivity.
  - pose proof (resolve_changes p s (a, d) ch RO C) as E. cbn [fst snd] in E. rewrite E.
    apply performs_outside. exact N.
Qed.

Lemma iter_stopped : forall p refs s e, Forall ref_ok refs ->
  (snd (iter (fun '(address, d) => resolve_one p dummy_linker address d) refs s) = Err e <->
   exists a d l1 chs l2, refs = l1 ++ (a, d) :: l2 /\ Forall2 (ref_changes p (labels s)) l1 chs /\
     inside (zlen (assembled s)) (concat chs) /\ stops p (labels s) (zlen (assembled s)) a d e).
Proof.
  intros p refs. induction refs as [|[a d] refs IH]; intros s e RO.
  - split; [discriminate|]. intros (a & d & l1 & chs & l2 & E & _). destruct l1; discriminate.
  - inversion RO as [|? ? R RO']; subst. cbn [iter]. unfold bind.
    destruct (resolve_one p dummy_linker a d s) as [s1 [[]|x]] eqn:E; cbn [snd].
    + destruct (resolve_inv p s s1 (a, d) R E) as [ch C].
      pose proof (resolve_changes p s (a, d) ch R C) as X. cbn [fst snd] in X. rewrite E in X.
      rewrite performs_eq in X.
      destruct (perform (assembled s) ch) as [out [y|]] eqn:P; cbn [fst snd] in X; [discriminate|]. injection X as ->.
      assert (I : inside (zlen (assembled s)) ch) by (apply perform_iff; rewrite P; reflexivity).
      assert (LN : zlen out = zlen (assembled s)).
      { apply perform_spec in P. destruct P as [L _]. unfold zlen. rewrite L. reflexivity. }
      rewrite IH by exact RO'. cbn [labels set_assembled assembled]. rewrite LN. split.
      * intros (a' & d' & l1 & chs & l2 & -> & F & J & S). exists a', d', ((a, d) :: l1), (ch :: chs), l2.
        split; [reflexivity|]. split; [constructor; assumption|]. split; [|exact S].
        apply Forall_app. split; assumption.
      * intros (a' & d' & l1 & chs & l2 & Q & F & J & S). destruct l1 as [|r l1].
        -- injection Q as -> -> ->. exfalso. apply stops_resolve in S; [|exact R]. rewrite E in S. discriminate.
        -- injection Q as <- ->. inversion F as [|? ch' ? chs' C' F']; subst.
           exists a', d', l1, chs', l2. split; [reflexivity|]. split; [exact F'|]. split; [|exact S].
           apply Forall_app in J. apply J.
    + split.
      * intros H. injection H as ->. exists a, d, [], [], refs. split; [reflexivity|]. split; [constructor|].
        split; [constructor|]. apply resolve_stops; [exact R|]. rewrite E. reflexivity.
      * intros (a' & d' & l1 & chs & l2 & Q & F & J & S). destruct l1 as [|r l1].
        -- injection Q as -> -> ->. apply stops_resolve in S; [|exact R]. rewrite E in S. exact S.
        -- exfalso. injection Q as <- ->. inversion F as [|? ch' ? chs' C' F']; subst.
           pose proof (resolve_changes p s (a, d) ch' R C') as X. cbn [fst snd] in X. rewrite E in X.
           apply Forall_app in J. destruct J as [J _]. apply perform_iff in J.
           rewrite performs_eq, J in X. discriminate.
Qed.

(** ** Names after operators *)

Lemma mentions_fails : forall p lbls t name start, mentions t name ->
  parse_integer p lbls name 64 false = Ok None -> dget str_eqb lbls name = None ->
  forall v, label_relative p lbls t start <> Ok (Some v).
Proof.
  intros p lbls t name start (sel & head & ch1 & op & sel' & ch2 & -> & S & N & O & NE & C & S' & N' & O' & NE') P U v H.
  unfold label_relative, label_by_name_with in H. rewrite gmf_chain in H by assumption.
  destruct (dget str_eqb lbls head) as [l|]; [|discriminate].
  rewrite math_fuel_S, amf_unfold, split_ops_show in H by exact C.
  assert (B : forall f, eval_arg p lbls f (sel' ++ name) = Err (AExc (UnknownLabel (sel' ++ name)))).
  { intros f. unfold eval_arg. rewrite piw_sel by (auto using no_ops_plain).
    apply parse_none_internal in P; [|apply no_ops_plain; assumption]. destruct P as [x ->]. cbn [rbind].
    rewrite lbn_sel by (auto using no_ops_plain). rewrite U. reflexivity. }
  assert (G : forall f w r, ops_loop (eval_arg p lbls f) (ch1 ++ (op, sel' ++ name) :: ch2) w <> Ok r).
  { clear H C. intros f. induction ch1 as [|[o b] ch1 IH]; intros w r H; cbn [app ops_loop] in H.
    - destruct (sel' ++ name) as [|y z] eqn:E; [destruct sel'; [contradiction|discriminate]|].
      rewrite B in H. discriminate.
    - destruct (match b with [] => Ok 1 | _ => eval_arg p lbls f b end) as [k|]; cbn [rbind] in H; [|discriminate].
      destruct (apply_command o w k) as [k'|]; cbn [rbind] in H; [|discriminate]. exact (IH _ _ H). }
  destruct (ops_loop _ _ _) as [r|] eqn:E in H; [|discriminate]. exact (G _ _ _ E).
Qed.
