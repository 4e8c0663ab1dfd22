(** A cartridge header, once written, stays. *)
From Coq Require Import Lia.
From Verif Require Import Py PyFacts Utils Tokenizer State Assembler SpecUtils SpecExec SpecLink UtilsFacts Events ExecFacts
  SpecCpu SpecPlace PropsExec PropsLink PlaceFacts Lr35902 FitLr Platform SpecPlat PlatFacts TileFacts PropsRuns Demo.
Local Open Scope Z_scope.

Lemma registered : forall V p (l base : list (str * V)) k v, dget str_eqb (register_all p base l) k = Some v ->
  dget str_eqb base k = Some v \/ In v (map snd l).
Proof.
  intros V p l. unfold register_all. induction l as [|[n w] l IH]; intros base k v H; [left; exact H|]. cbn [fold_left map snd In] in *.
  apply IH in H. destruct H as [H|H]; [|auto]. unfold register in H. rewrite dget_dset in H.
  destruct (str_eqb k _); [injection H as <-; auto|auto].
Qed.

(** Directives of a platform. *)
Lemma custom_in : forall p e ops dirs pre post k f, dget str_eqb (c_directives (mk_cfg p e ops dirs pre post)) k = Some (D_custom f) ->
  In (D_custom f) (map snd dirs).
Proof.
  intros p e ops dirs pre post k f H. unfold mk_cfg in H. cbn [c_directives] in H. apply registered in H. destruct H as [H|H]; [|exact H].
  apply registered in H. destruct H as [H|H]; [discriminate|]. exfalso. cbn [internal_directives map snd] in H.
  repeat (destruct H as [H|H]; [discriminate|]). exact H.
Qed.

(** ** What holds stays *)

Definition held (P : st -> Prop) (s s' : st) : Prop := P s -> P s'.
Definition settled (s : st) : Prop := tidy s /\ Forall ref_ok (labels_addresses s).

Lemma good_settled : forall s s', good s s' -> held settled s s'.
Proof. intros s s' G [T R]. destruct (G T) as (T' & _ & _ & _ & RK). split; auto. Qed.
Lemma held_closed : forall P, (forall s s', good s s' -> held P s s') -> closed (held P).
Proof.
  intros P H. destruct good_closed as [C1 C2 C3 C4 C5 C6]. constructor; intros; try (apply H; eauto; fail).
  intros X. auto.
Qed.
Lemma settled_closed : closed (held settled).
Proof. apply held_closed, good_settled. Qed.

(** The header is in place and no reference lies in it. *)
Definition header_kept (s : st) : Prop := settled s /\
  (exists a m b, assembled s = a ++ (gb_entry ++ gb_logo) ++ m ++ [0; 0; 0] ++ b /\ zlen a = 0x100 /\ length m = 25%nat) /\
  Forall (fun r => (exists iv, occupies r iv /\ fst iv < snd iv <= 0x100) \/ 0x150 <= fst r) (labels_addresses s).

Lemma header_length : forall s, header_kept s -> 0x150 <= zlen (assembled s).
Proof.
  intros s (_ & (a & m & b & -> & LA & LM) & _). rewrite !zlen_app, LA. change (zlen gb_entry) with 4. change (zlen gb_logo) with 48.
  change (zlen [0; 0; 0]) with 3. unfold zlen at 1. rewrite LM. assert (0 <= zlen b) by apply zlen_nonneg. lia.
Qed.
Lemma good_header : forall s s', good s s' -> held header_kept s s'.
Proof.
  intros s s' G K. pose proof (header_length s K) as L. destruct K as (S & (a & m & b & E & LA & LM) & F).
  pose proof (good_settled _ _ G S) as S'. destruct S as [T R]. destruct (G T) as (_ & (x & EX) & (l & EL & FL) & _ & _).
  split; [exact S'|]. split.
  - exists a, m, (b ++ x). split; [|auto]. rewrite EX, E, <- !app_assoc. reflexivity.
  - rewrite EL. apply Forall_app. split; [exact F|]. eapply Forall_impl; [|exact FL]. cbv beta. intros r H. right. lia.
Qed.
Lemma header_closed : closed (held header_kept).
Proof. apply held_closed, good_header. Qed.

(** ** The directives *)

Lemma replace_len : forall A n (v : A) l, length (replace_nth n v l) = length l.
Proof. intros A n v l. revert n. induction l; intros [|n]; cbn [replace_nth length]; auto. Qed.
Lemma write_len : forall blob address out out' e, write_bytes address blob out = (out', e) -> zlen out' = zlen out.
Proof.
  induction blob as [|b blob IH]; intros address out out' e H; cbn [write_bytes] in H; [injection H as <- _; reflexivity|].
  destruct (set_index out address b) as [o|] eqn:SI; [|injection H as <- _; reflexivity].
  apply IH in H. rewrite H. apply set_index_inv in SI. destruct SI as (x & y & z & -> & _ & ->). rewrite !zlen_app, !zlen_cons. reflexivity.
Qed.
Lemma write_inside : forall blob address (a m b : bytes) out' e, zlen a <= address -> address + zlen blob <= zlen a + zlen m ->
  write_bytes address blob (a ++ m ++ b) = (out', e) -> exists m', out' = a ++ m' ++ b /\ length m' = length m.
Proof.
  induction blob as [|v blob IH]; intros address a m b out' e L1 L2 H; cbn [write_bytes] in H; [injection H as <- _; eauto|].
  rewrite zlen_cons in L2. assert (0 <= zlen blob) by apply zlen_nonneg.
  destruct (cut _ m (Z.to_nat (address - zlen a))) as (m1 & m2 & E & LM); [unfold zlen in *; lia|].
  assert (Z1 : zlen m1 = address - zlen a) by (unfold zlen in *; lia).
  rewrite E, zlen_app in L2. destruct m2 as [|x m2]; [exfalso; change (zlen []) with 0 in L2; lia|].
  rewrite E in H. replace (a ++ (m1 ++ x :: m2) ++ b) with ((a ++ m1) ++ x :: m2 ++ b) in H by (rewrite <- !app_assoc; reflexivity).
  replace address with (zlen (a ++ m1)) in H at 1 by (rewrite zlen_app; lia). rewrite set_index_app in H.
  replace ((a ++ m1) ++ v :: m2 ++ b) with (a ++ (m1 ++ v :: m2) ++ b) in H by (rewrite <- !app_assoc; reflexivity).
  apply IH in H; [|lia|rewrite zlen_app, zlen_cons in *; lia].
  destruct H as (m' & -> & LM'). exists m'. split; [reflexivity|]. rewrite LM', E, !app_length. reflexivity.
Qed.

Lemma fill_inv : forall p address size tokens s s', cartridge_fill p address size tokens s = (s', Ok tt) ->
  exists blob out, zlen blob <= size /\ write_bytes address blob (assembled s) = (out, None) /\ s' = set_assembled s out.
Proof.
  intros p address size tokens s s' H. unfold cartridge_fill in H. unfold bind at 1, get in H.
  destruct (negb _); [discriminate|]. destruct (Nat.ltb _ _); [discriminate|]. unfold bind at 1 in H.
  pose proof (reader_parse_bytes p (skipn 1 tokens) [] s) as R. destruct (parse_bytes_or_ascii _ _ _ _) as [s1 [blob|e]]; cbn [fst] in R; subst s1.
  - destruct (Z.ltb_spec size (zlen blob)); [discriminate|]. destruct (write_bytes _ _ _) as [out [e|]] eqn:W; [discriminate|].
    injection H as <-. exists blob, out. auto.
  - destruct e as [[]|]; discriminate.
Qed.
Lemma fill_settled : forall p address size tokens s, runs (held settled) (cartridge_fill p address size tokens) s.
Proof.
  intros p address size tokens s s' [] H [T R]. apply fill_inv in H. destruct H as (blob & out & _ & W & ->). apply write_len in W.
  split; [|exact R]. destruct T as (ivs & F & I & D). exists ivs. cbn [labels_addresses assembled set_assembled]. rewrite W. auto.
Qed.
Lemma fill_header : forall p address size tokens s, 0x134 <= address -> address + size <= 0x14D ->
  runs (held header_kept) (cartridge_fill p address size tokens) s.
Proof.
  intros p address size tokens s A1 A2 s' [] H (S & (a & m & b & E & LA & LM) & F).
  pose proof (fill_settled _ _ _ _ _ _ _ H S) as S'. apply fill_inv in H. destruct H as (blob & out & L & W & ->).
  split; [exact S'|]. split; [|exact F]. cbn [assembled set_assembled].
  rewrite E in W. rewrite app_assoc in W. apply write_inside in W.
  - destruct W as (m' & -> & LM'). exists a, m', b. rewrite <- app_assoc. split; [reflexivity|]. split; [exact LA|congruence].
  - rewrite !zlen_app, LA. change (zlen gb_entry) with 4. change (zlen gb_logo) with 48. lia.
  - rewrite !zlen_app, LA. change (zlen gb_entry) with 4. change (zlen gb_logo) with 48. unfold zlen at 2. rewrite LM. lia.
Qed.

Section Tiles.
  Context (G : st -> st -> Prop) (CL : closed G).
  Lemma tiles_run : forall e ok conv tokens s, runs G (directive_tiles e ok conv tokens) s.
  Proof.
    intros e ok conv tokens s. unfold directive_tiles. destruct (negb _); [apply runs_reader; [exact CL|apply reader_araise]|].
    apply runs_read; [apply reader_tok_at|]. intros t1 _. apply runs_read; [apply reader_lift|]. intros name _.
    apply runs_read; [apply reader_open_file|]. intros img _.
    destruct (negb _); [apply runs_reader; [exact CL|apply reader_araise]|].
    destruct (negb _); [apply runs_reader; [exact CL|apply reader_araise]|].
    apply runs_iter; [exact CL|]. intros cy s1 _. apply runs_iter; [exact CL|]. intros cx s2 _.
    apply runs_read; [apply reader_lift|]. intros b _. apply runs_emit. exact CL.
  Qed.
End Tiles.

Lemma cartridge_inv : forall tokens s s', gb_cartridge tokens s = (s', Ok tt) -> zlen (assembled s) = 256 /\
  exists s1, change_org lr_p 0x100 (current_org_end s) s = (s1, Ok tt) /\
    s' = set_cartridge (set_counter (set_assembled s1 (assembled s1 ++ gb_header)) (org_counter s1 + zlen gb_header)) true.
Proof.
  intros tokens s s' H. unfold gb_cartridge in H. unfold bind at 1, get in H.
  destruct (Z.eqb_spec (zlen (assembled s)) 256) as [L|L]; cbn [negb] in H; [|discriminate]. split; [exact L|].
  unfold bind at 1 in H. destruct (change_org _ _ _ _) as [s1 [[]|]] eqn:CO; [|discriminate]. exists s1. split; [reflexivity|].
  unfold append_assembled_bytes, bind, modify in H. injection H as <-. reflexivity.
Qed.
Lemma cartridge_good : forall tokens s s', gb_cartridge tokens s = (s', Ok tt) -> good s s'.
Proof.
  intros tokens s s' H. apply cartridge_inv in H. destruct H as (_ & s1 & CO & ->).
  eapply good_trans; [eapply (runs_change_org good good_closed (lr35902 Demo.demo_env)); exact CO|].
  eapply good_append; reflexivity.
Qed.
Lemma cartridge_settled : forall tokens s, runs (held settled) (gb_cartridge tokens) s.
Proof. intros tokens s s' [] H. apply good_settled. eapply cartridge_good; eauto. Qed.
Lemma cartridge_header : forall tokens s, runs (held header_kept) (gb_cartridge tokens) s.
Proof. intros tokens s s' [] H. apply good_header. eapply cartridge_good; eauto. Qed.

Lemma gb_customs : forall e G, closed G -> (forall tokens s, runs G (gb_cartridge tokens) s) ->
  (forall address size tokens s, 0x134 <= address -> address + size <= 0x14D -> runs G (cartridge_fill lr_p address size tokens) s) ->
  forall k f tokens s, dget str_eqb (c_directives (gameboy e)) k = Some (D_custom f) -> runs G (f tokens) s.
Proof.
  intros e G CL C F k f tokens s H. apply custom_in in H. cbn [gb_directives map snd] in H.
  repeat (destruct H as [H|H]; [injection H as <-; first [apply C|apply F; lia|apply tiles_run; exact CL]|]). contradiction.
Qed.
Lemma gb_neat : forall e, handlers neat (gameboy e).
Proof. intros e. exact (proj2 (lr_fits e)). Qed.

(** The header is put at 0x100. *)
Lemma cartridge_puts : forall tokens s s', gb_cartridge tokens s = (s', Ok tt) -> settled s ->
  current_org_end s = 0 \/ pc s = 0x100 -> header_kept s'.
Proof.
  intros tokens s s' H S0 O. pose proof (cartridge_settled _ _ _ _ H S0) as S'. pose proof (cartridge_good _ _ _ H) as G.
  apply cartridge_inv in H. destruct H as (L & s1 & CO & E).
  assert (A1 : assembled s1 = assembled s).
  { unfold change_org in CO. destruct (Z.ltb_spec 0 (current_org_end s)) as [Q|Q].
    - destruct (Z.ltb_spec (current_org_end s) 0x100) as [Q2|Q2]; [discriminate|]. cbn [andb] in CO.
      destruct O as [O|O]; [lia|]. unfold bind at 1, get in CO. unfold bind at 1, modify in CO.
      destruct (Z.ltb_spec 0 (current_org_end s)); [|lia]. unfold pc in O. rewrite O in CO.
      change (0x100 <? 0x100) with false in CO. destruct (Z.ltb_spec (current_org_end s) 0x100); [lia|].
      destruct (_ && _); [|discriminate]. change (0x100 - 0x100) with 0 in CO. cbn in CO. injection CO as <-.
      cbn [assembled set_assembled set_org]. apply app_nil_r.
    - cbn [andb] in CO. unfold bind at 1, get in CO. unfold bind at 1, modify in CO.
      destruct (Z.ltb_spec 0 (current_org_end s)); [lia|]. injection CO as <-. reflexivity. }
  assert (EA : assembled s' = assembled s ++ gb_header) by (rewrite E; cbn [assembled set_cartridge set_counter set_assembled]; rewrite A1; reflexivity).
  split; [exact S'|]. split.
  - exists (assembled s), (repeat 0 16 ++ repeat 0 2 ++ repeat 0 2 ++ repeat 0 2 ++ [0x01] ++ [0x33] ++ repeat 0 1), [].
    split; [rewrite EA; reflexivity|]. split; [exact L|reflexivity].
  - destruct S' as [(ivs & F & I & _) _]. destruct S0 as [(ivs0 & F0 & I0 & _) _].
    assert (ER : labels_addresses s' = labels_addresses s).
    { rewrite E. cbn [labels_addresses set_cartridge set_counter set_assembled]. clear - CO.
      unfold change_org in CO. destruct (_ && _); [discriminate|]. unfold bind at 1, get in CO. unfold bind at 1, modify in CO.
      repeat match type of CO with (if ?b then _ else _) _ = _ => destruct b end; try discriminate;
        try (injection CO as <-; reflexivity); unfold bind, lift, append_raw, modify in CO;
        destruct (fill_blob _ _); try discriminate; injection CO as <-; reflexivity. }
    rewrite ER. clear - F0 I0 L. induction F0 as [|r iv l ivs O F IH]; constructor; inversion I0; subst; auto.
    left. exists iv. split; [exact O|]. lia.
Qed.
