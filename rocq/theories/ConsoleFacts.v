(** What the directives of the consoles leave alone. *)
From Coq Require Import Lia.
From Verif Require Import Py PyFacts Utils Tokenizer State Assembler SpecUtils SpecExec SpecLink UtilsFacts Events ExecFacts
  SpecCpu CpuFacts FitFacts SpecPlace PropsExec PropsLink PlaceFacts PropsPlace PropsRuns Lr35902 Mos6502 Z80 FitLr FitMos FitZ80 Platform SpecPlat PlatFacts
  TileFacts CartFacts PropsPlat Demo.
Local Open Scope Z_scope.

(** ** Bytes *)

Lemma parse_bytes_byte : forall p l b s b', Forall is_byte b ->
  snd (parse_bytes_or_ascii p l b s) = Ok b' -> Forall is_byte b'.
Proof.
  induction l as [|t l IH]; intros b s b' B H; cbn [parse_bytes_or_ascii] in H; [injection H as <-; exact B|].
  rewrite bind_reader in H by apply reader_lift. cbn [lift snd] in H. destruct (is_quoted t) as [[]|]; [| |discriminate].
  - rewrite bind_reader in H by apply reader_lift. cbn [lift snd] in H. destruct (encode_ascii (inner t)) as [x|] eqn:E; [|discriminate].
    apply IH in H; auto. apply Forall_app. split; [exact B|]. eapply encode_ascii_byte; eauto.
  - rewrite bind_reader in H by apply reader_parse. destruct (snd (m_parse_integer _ _ _ _ _)) as [[v|]|]; try discriminate.
    rewrite bind_reader in H by apply reader_lift. cbn [lift snd] in H. destruct (pack_byte [Some v]) as [x|] eqn:E; [|discriminate].
    apply IH in H; auto. apply Forall_app. split; [exact B|]. eapply struct_pack_byte; eauto.
Qed.
Lemma blob_byte : forall l b, blob_of l = Ok b -> Forall is_byte b.
Proof.
  intros l b H. pose proof (blob_inv _ _ H) as ->. unfold blob_of in H. destruct (forallb _ l) eqn:F; [|discriminate].
  rewrite forallb_forall in F. apply Forall_forall. intros x I. apply F in I. unfold is_byte. apply andb_true_iff in I. lia.
Qed.

Lemma bytes_emit : forall b, Forall is_byte b -> kept bytes_kept (append_assembled_bytes b).
Proof. intros b B s [X Y]. split; [apply Forall_app; auto|exact Y]. Qed.
Lemma bytes_raw : forall b, Forall is_byte b -> kept bytes_kept (append_raw b).
Proof. intros b B s [X Y]. split; [apply Forall_app; auto|exact Y]. Qed.
Lemma bytes_reader : forall A (m : M A), reader m -> kept bytes_kept m.
Proof. intros. apply kept_reader; [exact bytes_refl|assumption]. Qed.
Lemma bytes_bind : forall A B (m : M A) (k : A -> M B), kept bytes_kept m -> (forall a, kept bytes_kept (k a)) -> kept bytes_kept (bind m k).
Proof. intros. apply kept_bind; [exact bytes_trans|assumption|assumption]. Qed.
Lemma bytes_modify : forall f, (forall s, byte_state s -> byte_state (f s)) -> kept bytes_kept (modify f).
Proof. intros f F s. exact (F s). Qed.

Lemma fill_bytes : forall p address size tokens, kept bytes_kept (cartridge_fill p address size tokens).
Proof.
  intros p address size tokens s [X Y]. unfold cartridge_fill. unfold bind at 1, get. destruct (negb _); [split; auto|].
  destruct (Nat.ltb _ _); [split; auto|]. unfold bind at 1.
  pose proof (reader_parse_bytes p (skipn 1 tokens) [] s) as R. pose proof (parse_bytes_byte p (skipn 1 tokens) [] s) as Q.
  destruct (parse_bytes_or_ascii _ _ _ _) as [s1 [blob|e]]; cbn [fst snd] in *; subst s1.
  - destruct (_ <? _); [split; auto|]. specialize (Q blob (Forall_nil _) eq_refl). pose proof (write_bytes_byte blob address (assembled s) Q X) as W.
    destruct (write_bytes _ _ _) as [out e]. cbn [fst] in *. destruct e; split; auto.
  - destruct e as [[]|]; split; auto.
Qed.
Lemma tiles_bytes : forall e ok conv tokens, (forall img x y b, conv img x y = Ok b -> Forall is_byte b) ->
  kept bytes_kept (directive_tiles e ok conv tokens).
Proof.
  intros e ok conv tokens C. unfold directive_tiles. destruct (negb _); [apply bytes_reader, reader_araise|].
  apply bytes_bind; [apply bytes_reader, reader_tok_at|]. intros t. apply bytes_bind; [apply bytes_reader, reader_lift|]. intros n.
  apply bytes_bind; [apply bytes_reader, reader_open_file|]. intros img.
  destruct (negb _); [apply bytes_reader, reader_araise|]. destruct (negb _); [apply bytes_reader, reader_araise|].
  apply kept_iter; [exact bytes_refl|exact bytes_trans|]. intros y _. apply kept_iter; [exact bytes_refl|exact bytes_trans|]. intros x _.
  intros s B. unfold bind, lift. destruct (conv img x y) as [b|] eqn:E; [|exact B]. apply bytes_emit; eauto.
Qed.
Lemma by_row_byte : forall limit planes img x y b, tiles_by_row img limit planes x y = Ok b -> Forall is_byte b.
Proof. intros limit planes img x y b H. unfold tiles_by_row in H. destruct (cell_rows _ _ _ _ _); [|discriminate]. eapply blob_byte; eauto. Qed.
Lemma by_plane_byte : forall limit planes img x y b, tiles_by_plane img limit planes x y = Ok b -> Forall is_byte b.
Proof. intros limit planes img x y b H. unfold tiles_by_plane in H. destruct (cell_rows _ _ _ _ _); [|discriminate]. eapply blob_byte; eauto. Qed.

Lemma org_bytes : forall p start stop, kept bytes_kept (change_org p start stop).
Proof.
  intros p start stop s B. unfold change_org.
  repeat match goal with
  | |- context [if ?b then _ else _] => destruct b
  | |- context [fill_blob ?v ?n] => destruct (fill_blob v n) eqn:?
  | _ => unfold bind, get, modify, lift, raise, araise, praise, ret, append_raw; cbn [fst]
  end; destruct B as [X Y]; split; cbn; auto; apply Forall_app; split; auto; eapply fill_blob_byte; eauto.
Qed.
Lemma byte_literal : forall l, forallb (fun b => (0 <=? b) && (b <? 256)) l = true -> Forall is_byte l.
Proof. intros l H. rewrite forallb_forall in H. apply Forall_forall. intros x I. apply H in I. unfold is_byte. apply andb_true_iff in I. lia. Qed.
Lemma gb_cartridge_bytes : forall tokens, kept bytes_kept (gb_cartridge tokens).
Proof.
  intros tokens s. unfold gb_cartridge. unfold bind at 1, get. destruct (negb _); [apply bytes_refl|]. generalize (current_org_end s) as stop. intros stop. revert s.
  apply bytes_bind; [apply org_bytes|]. intros _. apply bytes_bind; [apply bytes_emit, byte_literal; reflexivity|]. intros _.
  apply bytes_modify. intros s B. exact B.
Qed.
Lemma nes_cartridge_bytes : forall tokens, kept bytes_kept (nes_cartridge tokens).
Proof.
  intros tokens s. unfold nes_cartridge. unfold bind at 1, get. destruct (negb _); [apply bytes_refl|]. revert s.
  apply bytes_bind; [apply bytes_emit, byte_literal; reflexivity|]. intros _. apply bytes_modify. intros s B. exact B.
Qed.

(** A console: the instructions of a processor with directives of its own that keep bytes. *)
Lemma console_bytes : forall c cpu, fits cpu -> byte_files c -> c_instructions c = c_instructions cpu ->
  (forall k f tokens, dget str_eqb (c_directives c) k = Some (D_custom f) -> kept bytes_kept (f tokens)) ->
  forall fuel text s, byte_state s -> byte_state (fst (assemble c fuel text s)).
Proof.
  intros c cpu (H & S & _ & _) B I CU fuel text s.
  apply (events_keep c (ExecFacts.registered c) bytes_kept bytes_refl bytes_trans); [|apply assemble_registered].
  apply byte_event.
  - unfold byte_tables, static_tables in *. rewrite I. split; [exact S|]. split; [exact B|].
    intros k f tokens s1 b D E. destruct (H k f D tokens s1) as (ds & r & X & _ & _ & Y). rewrite X in E. apply Y. exact E.
  - split; [|intros k f tokens s1 D; eapply CU; eauto]. rewrite I. intros k f tokens s1 D.
    destruct (H k f D tokens s1) as (ds & r & E & _ & R & _). rewrite E. intros [X Y].
    split; [rewrite referring_same; exact X|apply referring_hooks; auto].
Qed.

(** ** What is written over *)

(** A cartridge header is placed when the output has at most [start] bytes, and it then has
    at least [stop]; only with a header in place are bytes changed, and only from [lo] to
    [hi]. *)
Definition carted (start stop lo hi : Z) (s s' : st) : Prop := tidy s ->
  tidy s' /\ later_refs s s' /\ extends (labels s) (labels s') /\
  (Forall ref_ok (labels_addresses s) -> Forall ref_ok (labels_addresses s')) /\
  (length (assembled s) <= length (assembled s'))%nat /\
  (cartridge_set s = true -> cartridge_set s' = true) /\
  (cartridge_set s = false -> cartridge_set s' = true -> zlen (assembled s) <= start /\ stop <= zlen (assembled s')) /\
  (forall i, (i < length (assembled s))%nat -> cartridge_set s' = false \/ ~ lo <= Z.of_nat i < hi ->
     nth_error (assembled s') i = nth_error (assembled s) i).

Lemma carted_good : forall start stop lo hi s s', good s s' -> cartridge_set s' = cartridge_set s -> carted start stop lo hi s s'.
Proof.
  intros start stop lo hi s s' G C T. destruct (G T) as (T' & (x & A) & R & L & O). rewrite C, A.
  split; [exact T'|]. split; [exact R|]. split; [exact L|]. split; [exact O|].
  split; [rewrite app_length; lia|]. split; [auto|]. split; [congruence|]. intros i I _. apply nth_error_app1. exact I.
Qed.
Lemma later_trans : forall a b d, (length (assembled a) <= length (assembled b))%nat -> later_refs a b -> later_refs b d -> later_refs a d.
Proof.
  intros a b d L (x & X & FX) (y & Y & FY). exists (x ++ y). rewrite Y, X, app_assoc. split; [reflexivity|].
  apply Forall_app. split; [exact FX|]. eapply Forall_impl; [|exact FY]. cbv beta. intros r Q. unfold zlen in *. lia.
Qed.
Lemma carted_trans : forall start stop lo hi a b d, carted start stop lo hi a b -> carted start stop lo hi b d -> carted start stop lo hi a d.
Proof.
  intros start stop lo hi a b d H1 H2 T. destruct (H1 T) as (T1 & R1 & L1 & O1 & N1 & C1 & D1 & E1).
  destruct (H2 T1) as (T2 & R2 & L2 & O2 & N2 & C2 & D2 & E2).
  split; [exact T2|]. split; [eapply later_trans; eauto|]. split; [eapply ExecFacts.extends_trans; eauto|]. split; [auto|].
  split; [lia|]. split; [auto|]. split.
  - intros A D. destruct (cartridge_set b) eqn:B.
    + destruct (D1 A eq_refl). unfold zlen in *. lia.
    + destruct (D2 eq_refl D). unfold zlen in *. lia.
  - intros i I P. rewrite E2 by (try lia; exact P). apply E1; [exact I|]. destruct P as [P|P]; [|auto]. left.
    destruct (cartridge_set b); [rewrite C2 in P by reflexivity; discriminate|reflexivity].
Qed.
Lemma carted_closed : forall start stop lo hi, closed (carted start stop lo hi).
Proof.
  intros start stop lo hi. destruct good_closed as [G1 G2 G3 G4 G5 G6]. constructor.
  - intros s. apply carted_good; auto.
  - apply carted_trans.
  - intros. apply carted_good; auto.
  - intros. apply carted_good; eauto.
  - intros s ds ns b s' A B C D E. apply carted_good; [eapply G5; eauto|]. rewrite E, referring_same. reflexivity.
  - intros. apply carted_good; eauto.
Qed.

Lemma nth_replace : forall A n (v : A) l i, i <> n -> nth_error (replace_nth n v l) i = nth_error l i.
Proof.
  intros A n v l. revert n. induction l as [|x l IH]; intros n i N; destruct n; cbn [replace_nth]; auto; destruct i; cbn [nth_error]; auto; try congruence.
Qed.
Lemma write_outside : forall blob address out out' e, write_bytes address blob out = (out', e) -> 0 <= address ->
  forall i, ~ address <= Z.of_nat i < address + zlen blob -> nth_error out' i = nth_error out i.
Proof.
  induction blob as [|b blob IH]; intros address out out' e H P i N; cbn [write_bytes] in H; [injection H as <- _; reflexivity|].
  rewrite zlen_cons in N. pose proof (zlen_nonneg blob). destruct (set_index out address b) as [o|] eqn:SI; [|injection H as <- _; reflexivity].
  rewrite (IH _ _ _ _ H) by lia. unfold set_index in SI. destruct (_ || _); [discriminate|]. injection SI as <-.
  apply nth_replace. lia.
Qed.
Lemma fill_carted : forall start stop lo hi p address size tokens s, 0 <= lo <= address -> address + size <= hi ->
  runs (carted start stop lo hi) (cartridge_fill p address size tokens) s.
Proof.
  intros start stop lo hi p address size tokens s A1 A2 s' [] H T.
  assert (C : cartridge_set s = true).
  { unfold cartridge_fill in H. unfold bind at 1, get in H. destruct (cartridge_set s); [reflexivity|discriminate]. }
  apply fill_inv in H. destruct H as (blob & out & L & W & ->). pose proof (write_len _ _ _ _ _ W) as WL.
  cbn [assembled set_assembled labels_addresses labels cartridge_set]. rewrite C.
  split; [|split; [|split; [|split; [|split; [|split; [|split]]]]]].
  - destruct T as (ivs & F & I & D). exists ivs. cbn [labels_addresses assembled set_assembled]. rewrite WL. auto.
  - exists []. rewrite app_nil_r. auto.
  - apply extends_refl.
  - auto.
  - unfold zlen in WL. lia.
  - auto.
  - discriminate.
  - intros i I [P|P]; [discriminate|]. eapply write_outside; eauto; lia.
Qed.
Lemma gb_cartridge_carted : forall tokens s, runs (carted 256 0x150 0x134 0x14D) (gb_cartridge tokens) s.
Proof.
  intros tokens s s' [] H T. pose proof (cartridge_good _ _ _ H T) as (T' & (x & A) & R & L & O).
  apply cartridge_inv in H. destruct H as (Z0 & s1 & CO & E).
  assert (C : cartridge_set s' = true) by (rewrite E; reflexivity).
  assert (X : extends (assembled s) (assembled s1)).
  { destruct (runs_change_org good good_closed (lr35902 Demo.demo_env) _ _ _ _ _ CO T) as (_ & X & _). exact X. }
  split; [exact T'|]. split; [exact R|]. split; [exact L|]. split; [exact O|]. split; [rewrite A, app_length; lia|]. split; [auto|].
  split.
  - intros _ _. split; [lia|]. destruct X as (y & XE).
    replace (assembled s') with ((assembled s ++ y) ++ gb_header) by (rewrite <- XE, E; reflexivity).
    rewrite !zlen_app, Z0. change (zlen gb_header) with 80. pose proof (zlen_nonneg y). lia.
  - intros i I _. rewrite A. apply nth_error_app1. exact I.
Qed.
Lemma nes_cartridge_carted : forall tokens s, runs (carted 0 16 5 7) (nes_cartridge tokens) s.
Proof.
  intros tokens s s' [] H T. unfold nes_cartridge in H. unfold bind at 1, get in H.
  destruct (Z.eqb_spec (zlen (assembled s)) 0) as [Z0|Z0]; cbn [negb] in H; [|discriminate].
  unfold append_assembled_bytes, bind, modify in H. injection H as H.
  assert (A : assembled s' = assembled s ++ nes_header) by (rewrite <- H; reflexivity).
  assert (G : good s (set_counter (set_assembled s (assembled s ++ nes_header)) (org_counter s + zlen nes_header)))
    by (eapply good_append; reflexivity).
  destruct (G T) as (T' & _ & R & L & O).
  assert (C : cartridge_set s' = true) by (rewrite <- H; reflexivity).
  split; [rewrite <- H; exact T'|]. split; [rewrite <- H; exact R|]. split; [rewrite <- H; exact L|]. split; [rewrite <- H; exact O|].
  split; [rewrite A, app_length; lia|]. split; [auto|].
  split.
  - intros _ _. rewrite A, zlen_app, Z0. change (zlen nes_header) with 16. lia.
  - intros i I _. rewrite A. apply nth_error_app1. exact I.
Qed.

(** ** An instruction in the middle of a program for a console *)

Lemma nth_length : forall A (l l' : list A), (forall i, nth_error l i = nth_error l' i) -> l = l'.
Proof.
  induction l as [|x l IH]; intros [|y l'] H; auto; [discriminate (H 0%nat)|discriminate (H 0%nat)|].
  pose proof (H 0%nat) as E. injection E as ->. f_equal. apply IH. intros i. exact (H (S i)).
Qed.
Lemma carve : forall A (l a b : list A), (length a + length b <= length l)%nat ->
  (forall i, (length a <= i < length a + length b)%nat -> nth_error l i = nth_error (a ++ b) i) ->
  exists pre out, l = pre ++ b ++ out /\ length pre = length a.
Proof.
  intros A l a b L H. exists (firstn (length a) l), (skipn (length b) (skipn (length a) l)).
  split; [|rewrite firstn_length; lia].
  replace b with (firstn (length b) (skipn (length a) l)) at 1.
  - rewrite firstn_skipn, firstn_skipn. reflexivity.
  - rewrite (slice_ext _ _ _ l (a ++ b) H). rewrite skipn_app, skipn_all, Nat.sub_diag. cbn [skipn app]. apply firstn_all.
Qed.

Lemma same_cart_closed : closed (fun s s' => cartridge_set s' = cartridge_set s).
Proof. constructor; intros; auto; [congruence|]. match goal with H : emitted _ _ _ |- _ => rewrite H end. rewrite referring_same. reflexivity. Qed.

Lemma console_sits : forall c cpu start stop lo hi fuel text s0 s words l t0 ops s1 s2,
  fits cpu -> handlers neat cpu -> byte_files c -> c_p c = c_p cpu -> c_instructions c = c_instructions cpu ->
  (forall k f tokens, dget str_eqb (c_directives c) k = Some (D_custom f) -> kept bytes_kept (f tokens)) ->
  (forall k f tokens s, dget str_eqb (c_directives c) k = Some (D_custom f) -> runs (carted start stop lo hi) (f tokens) s) ->
  start <= lo -> hi <= stop -> sane s0 -> cartridge_set s0 = false ->
  passes_through c fuel text s0 s (Stmt KInstruction words l) s1 s2 -> opcode_stmt c s words t0 ops ->
  sits cpu fuel s (Stmt KInstruction words l) s1 s2 /\ opcode_stmt cpu s words t0 ops /\
  (cartridge_set s2 = true -> zlen (assembled s1) <= start \/ stop <= zlen (assembled s)).
Proof.
  intros c cpu start stop lo hi fuel text s0 s words l t0 ops s1 s2 F N B P I KB CU Q1 Q2 (T0 & R0 & Y0) C0 (ss1 & ss2 & TK & E1 & E2 & E3) OS.
  assert (NE : handlers neat c) by (intros k f D; rewrite I in D; exact (N k f D)).
  destruct (same_instructions c cpu fuel words t0 ops l s P I OS) as [X OS'].
  pose proof (carted_closed start stop lo hi) as CL.
  assert (G1 : carted start stop lo hi s0 s) by (eapply (runs_exec _ CL c NE CU); eauto).
  assert (G2 : good s s1 /\ cartridge_set s1 = cartridge_set s).
  { rewrite X in E2. split; [eapply (keeps_exec cpu N (fits_custom cpu F)); eauto|].
    eapply (runs_exec _ same_cart_closed cpu N); eauto.
    intros k f tokens s' D s'' a H. destruct F as (_ & _ & _ & BR). destruct (BR _ _ D tokens s') as (bits & b & r & _ & Z).
    rewrite (Z s') in H by (repeat split). injection H as <- _. reflexivity. }
  assert (G3 : carted start stop lo hi s1 s2).
  { rewrite (assemble_exec _ _ _ _ _ TK) in E3. unfold exec in E3 at 1. unfold bind at 1 in E3.
    rewrite iter_app in E3. unfold bind at 1 in E3. fold (exec c fuel ss1) in E3. rewrite E1 in E3.
    match type of TK with _ = Ok (_ ++ ?x :: _) => change (x :: ss2) with ([x] ++ ss2) in E3 end. rewrite iter_app in E3. unfold bind at 1 in E3.
    match type of E2 with exec _ _ ?x _ = _ => fold (exec c fuel x) in E3 end. rewrite E2 in E3. fold (exec c fuel ss2) in E3.
    destruct (exec c fuel ss2 s1) as [s' [[]|]] eqn:E4; [|discriminate].
    eapply carted_trans; [eapply (runs_exec _ CL c NE CU); eauto|]. eapply (runs_tail _ CL c); eauto. }
  destruct G2 as [G2 CS]. destruct (G1 T0) as (T1 & _ & _ & O1 & N1 & C1 & D1 & _).
  destruct (G2 T1) as (T2 & (x & A2) & R2 & L2 & O2). destruct (G3 T2) as (T3 & R3 & L3 & O3 & N3 & C3 & D3 & K3).
  assert (POS : cartridge_set s2 = true -> zlen (assembled s1) <= start \/ stop <= zlen (assembled s)).
  { intros CT. destruct (cartridge_set s) eqn:CZ.
    - right. apply (D1 C0 eq_refl).
    - left. rewrite CS in D3. apply (D3 eq_refl CT). }
  split; [|split; [exact OS'|exact POS]].
  split; [rewrite <- X; exact E2|]. split; [exact T1|]. split; [exact R3|]. split; [eapply ExecFacts.extends_trans; eauto|]. split.
  - split; [exact T3|]. split; [auto|].
    pose proof (console_bytes c cpu F B I KB fuel text s0) as K. rewrite E3 in K. cbn [fst] in K. apply K. split; [exact Y0|].
    apply ref_ok_hooks. exact R0.
  - intros b AB. apply carve; [rewrite AB, app_length in N3; exact N3|]. intros i II. rewrite <- AB. apply K3; [rewrite AB, app_length; lia|].
    destruct (cartridge_set s2) eqn:CT; [right|left; reflexivity]. destruct (POS eq_refl) as [Z|Z].
    + rewrite AB, zlen_app in Z. unfold zlen in Z. lia.
    + unfold zlen in Z. lia.
Qed.

(** The consoles. *)
Lemma gb_byte_customs : forall e k f tokens, dget str_eqb (c_directives (gameboy e)) k = Some (D_custom f) -> kept bytes_kept (f tokens).
Proof.
  intros e k f tokens H. apply custom_in in H. cbn [gb_directives map snd] in H.
  repeat (destruct H as [H|H]; [injection H as <-; first [apply gb_cartridge_bytes|apply fill_bytes|apply tiles_bytes, by_row_byte]|]). contradiction.
Qed.
Lemma gb_carted_customs : forall e k f tokens s, dget str_eqb (c_directives (gameboy e)) k = Some (D_custom f) ->
  runs (carted 256 0x150 0x134 0x14D) (f tokens) s.
Proof.
  intros e. apply gb_customs; [apply carted_closed|apply gb_cartridge_carted|]. intros address size tokens s A1 A2. apply fill_carted; lia.
Qed.
Lemma nes_byte_customs : forall e k f tokens, dget str_eqb (c_directives (nes e)) k = Some (D_custom f) -> kept bytes_kept (f tokens).
Proof.
  intros e k f tokens H. apply custom_in in H. cbn [nes_directives map snd] in H.
  repeat (destruct H as [H|H]; [injection H as <-; first [apply nes_cartridge_bytes|apply fill_bytes|apply tiles_bytes, by_plane_byte]|]). contradiction.
Qed.
Lemma nes_carted_customs : forall e k f tokens s, dget str_eqb (c_directives (nes e)) k = Some (D_custom f) ->
  runs (carted 0 16 5 7) (f tokens) s.
Proof.
  intros e k f tokens s H. apply custom_in in H. cbn [nes_directives map snd] in H.
  repeat (destruct H as [H|H]; [injection H as <-; first [apply nes_cartridge_carted|apply fill_carted; lia|apply tiles_run, carted_closed]|]). contradiction.
Qed.
Lemma sms_byte_customs : forall e k f tokens, dget str_eqb (c_directives (sms e)) k = Some (D_custom f) -> kept bytes_kept (f tokens).
Proof.
  intros e k f tokens H. apply custom_in in H. cbn [sms_directives map snd] in H.
  repeat (destruct H as [H|H]; [injection H as <-; apply tiles_bytes, by_row_byte|]). contradiction.
Qed.
Lemma sms_carted_customs : forall e k f tokens s, dget str_eqb (c_directives (sms e)) k = Some (D_custom f) ->
  runs (carted 0 0 0 0) (f tokens) s.
Proof.
  intros e k f tokens s H. apply custom_in in H. cbn [sms_directives map snd] in H.
  repeat (destruct H as [H|H]; [injection H as <-; apply tiles_run, carted_closed|]). contradiction.
Qed.

Lemma nes_sits : forall e fuel text s0 s words l t0 ops s1 s2, byte_files (nes e) -> sane s0 -> cartridge_set s0 = false ->
  passes_through (nes e) fuel text s0 s (Stmt KInstruction words l) s1 s2 -> opcode_stmt (nes e) s words t0 ops ->
  sits (mos6502 e) fuel s (Stmt KInstruction words l) s1 s2 /\ opcode_stmt (mos6502 e) s words t0 ops.
Proof.
  intros e fuel text s0 s words l t0 ops s1 s2 B S C H OS.
  destruct (console_sits (nes e) (mos6502 e) 0 16 5 7 fuel text s0 s words l t0 ops s1 s2) as (X & Y & _); auto; try lia; try reflexivity.
  - apply mos_fits.
  - apply mos_fits.
  - apply nes_byte_customs.
  - apply nes_carted_customs.
Qed.
Lemma sms_sits : forall e fuel text s0 s words l t0 ops s1 s2, byte_files (sms e) -> sane s0 -> cartridge_set s0 = false ->
  passes_through (sms e) fuel text s0 s (Stmt KInstruction words l) s1 s2 -> opcode_stmt (sms e) s words t0 ops ->
  sits (z80 e) fuel s (Stmt KInstruction words l) s1 s2 /\ opcode_stmt (z80 e) s words t0 ops.
Proof.
  intros e fuel text s0 s words l t0 ops s1 s2 B S C H OS.
  destruct (console_sits (sms e) (z80 e) 0 0 0 0 fuel text s0 s words l t0 ops s1 s2) as (X & Y & _); auto; try lia; try reflexivity.
  - apply z80_fits.
  - apply z80_fits.
  - apply sms_byte_customs.
  - apply sms_carted_customs.
Qed.
Lemma gb_sits : forall e fuel text s0 s words l t0 ops s1 s2, byte_files (gameboy e) -> sane s0 -> cartridge_set s0 = false ->
  passes_through (gameboy e) fuel text s0 s (Stmt KInstruction words l) s1 s2 -> opcode_stmt (gameboy e) s words t0 ops ->
  sits (lr35902 e) fuel s (Stmt KInstruction words l) s1 s2 /\ opcode_stmt (lr35902 e) s words t0 ops /\
  (cartridge_set s2 = true -> zlen (assembled s1) <= 256 \/ 0x150 <= zlen (assembled s)).
Proof.
  intros e fuel text s0 s words l t0 ops s1 s2 B S C H OS.
  apply (console_sits (gameboy e) (lr35902 e) 256 0x150 0x134 0x14D fuel text s0 s words l t0 ops s1 s2); auto; try lia; try reflexivity.
  - apply lr_fits.
  - apply lr_fits.
  - apply gb_byte_customs.
  - apply gb_carted_customs.
Qed.
