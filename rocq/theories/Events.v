(** The effects an assembler can have, as primitive events, and the proof that
    every run of assemble() is a sequence of such events, whether it succeeds or
    fails.  Invariants of the executor are proved event by event. *)
From Coq Require Import Lia.
From Verif Require Import Py PyFacts Utils Tokenizer State Assembler SpecUtils UtilsFacts ParseFacts.
Local Open Scope Z_scope.

(** ** Reasoning rules for the monad *)

(** A computation that only reads the state. *)
Definition reader {A} (m : M A) : Prop := forall s, fst (m s) = s.

Lemma reader_ret : forall A (a : A), reader (ret a).
Proof. intros A a s. reflexivity. Qed.
Lemma reader_raise : forall A e, reader (@raise A e).
Proof. intros A e s. reflexivity. Qed.
Lemma reader_araise : forall A e, reader (@araise A e).
Proof. intros A e s. reflexivity. Qed.
Lemma reader_praise : forall A e, reader (@praise A e).
Proof. intros A e s. reflexivity. Qed.
Lemma reader_lift : forall A (r : res A), reader (lift r).
Proof. intros A r s. reflexivity. Qed.
Lemma reader_get : reader get.
Proof. intros s. reflexivity. Qed.
Lemma reader_bind : forall A B (m : M A) (k : A -> M B),
  reader m -> (forall a, reader (k a)) -> reader (bind m k).
Proof.
  intros A B m k Hm Hk s. unfold bind. specialize (Hm s). destruct (m s) as [s' [a|e]]; cbn in *.
  - subst. apply Hk.
  - exact Hm.
Qed.
Lemma reader_parse : forall p t n b, reader (m_parse_integer p t n b).
Proof. intros p t n b s. reflexivity. Qed.
Lemma reader_tok_at : forall l i, reader (tok_at l i).
Proof. intros l i s. unfold tok_at. destruct (nth_error l i); reflexivity. Qed.
Lemma reader_int_arg : forall p t n, reader (int_arg p t n).
Proof.
  intros. apply reader_bind; [apply reader_parse|]. intros []; [apply reader_ret|apply reader_araise].
Qed.
Lemma reader_fill_arg : forall p l, reader (fill_arg p l).
Proof.
  intros. unfold fill_arg. destruct (len_in l _); [|apply reader_ret].
  apply reader_bind; [apply reader_tok_at|]. intros. apply reader_int_arg.
Qed.
Lemma reader_open_file : forall A (f : str -> option A) n, reader (open_file f n).
Proof. intros. unfold open_file. destruct (f n); [apply reader_ret|apply reader_praise]. Qed.
Lemma reader_parse_bytes : forall p l b, reader (parse_bytes_or_ascii p l b).
Proof.
  induction l; intros; cbn [parse_bytes_or_ascii]; [apply reader_ret|].
  apply reader_bind; [apply reader_lift|]. intros [].
  - apply reader_bind; [apply reader_lift|]. auto.
  - apply reader_bind; [apply reader_parse|]. intros [].
    + apply reader_bind; [apply reader_lift|]. auto.
    + apply reader_araise.
Qed.
Lemma reader_csv : forall p n pk cols b, reader (csv_blob p n pk cols b).
Proof.
  induction cols; intros; cbn [csv_blob]; [apply reader_ret|].
  apply reader_bind; [apply reader_parse|]. intros [].
  - apply reader_bind; [apply reader_lift|]. auto.
  - apply reader_araise.
Qed.
Lemma reader_json : forall p items b, reader (json_blob p items b).
Proof.
  induction items as [|item t IH]; intros; cbn [json_blob]; [apply reader_ret|].
  apply reader_bind.
  - destruct item; try apply reader_ret; try apply reader_praise.
    apply reader_bind; [apply reader_parse|]. intros []; [apply reader_ret|apply reader_araise].
  - intros. apply reader_bind; [apply reader_lift|]. auto.
Qed.

Lemma bind_reader : forall A B (m : M A) (k : A -> M B) s, reader m ->
  bind m k s = match snd (m s) with Ok a => k a s | Err e => (s, Err e) end.
Proof.
  intros A B m k s R. unfold bind. specialize (R s). destruct (m s) as [s' [a|e]]; cbn in *; subst; auto.
Qed.

Lemma open_file_ok : forall A (f : str -> option A) n s a,
  snd (open_file f n s) = Ok a -> f n = Some a.
Proof. intros A f n s a H. unfold open_file in H. destruct (f n); [injection H as <-; reflexivity|discriminate]. Qed.

(** ** Events *)

(** Tables and files made of bytes. *)
Definition static_bytes (c : cfg) : Prop :=
  (forall k b, dget str_eqb (c_instructions c) k = Some (OStatic b) -> Forall is_byte b) /\
  (forall n b, file_bytes (c_env c) n = Some b -> Forall is_byte b).
Definition handlers_bytes (c : cfg) : Prop :=
  forall k f tokens s b, dget str_eqb (c_instructions c) k = Some (OFun f) ->
    snd (f tokens s) = Ok (Some b) -> Forall is_byte b.

(** The references recorded by directives: no filter and either no hook or the
    decimal text hook. *)
Definition plain_hook (d : labeldata) : Prop :=
  ld_hook d = None \/ exists w, ld_hook d = Some (to_str_hook w).

Section Events.
  Context (c : cfg) (allowed : directive -> list str -> Prop).

  Inductive event : st -> st -> Prop :=
  | E_emit s blob :
      (static_bytes c -> handlers_bytes c -> Forall is_byte blob) ->
      event s (set_counter (set_assembled s (assembled s ++ blob)) (org_counter s + zlen blob))
  | E_copy s blob : incl blob (assembled s) ->
      event s (set_counter (set_assembled s (assembled s ++ blob)) (org_counter s + zlen blob))
  | E_ref s d : plain_hook d -> ld_bits d = None -> ld_filter d = None ->
      0 < ld_size d -> ld_relative d = 0 -> ld_offset d = 0 ->
      event s (set_labels_addresses s
        (dset Z.eqb (labels_addresses s) (zlen (assembled s) + ld_offset d) d))
  | E_handler s k f tokens : dget str_eqb (c_instructions c) k = Some (OFun f) ->
      event s (fst (f tokens s))
  | E_custom s f tokens : allowed (D_custom f) tokens ->
      event s (fst (f tokens s))
  | E_label s key : macro_recording s = None -> dmem str_eqb (labels s) key = false ->
      is_valid_name key = true ->
      parse_integer (c_p c) (labels s) key 64 false = Ok None ->
      event s (set_labels s (dset str_eqb (labels s) key
                 (MkLabel (org_counter s) (current_org s) (current_section s))))
  | E_org s start stop d tokens : allowed d tokens ->
      d = D_org \/ (d = D_section /\ length tokens = 4%nat) -> 0 <= start -> 0 <= stop ->
      event s (set_org s start stop 0)
  | E_raw s blob d tokens : allowed d tokens ->
      d = D_org \/ (d = D_section /\ length tokens = 4%nat) -> Forall is_byte blob ->
      event s (set_assembled s (assembled s ++ blob))
  | E_ram s n tokens : allowed D_ram tokens -> 1 <= n ->
      event s (set_counter s (org_counter s + n))
  | E_macro_start s key args : macro_recording s = None ->
      event s (set_macro_recording
                 (set_macros s (dset str_eqb (macros s) key (MkMacro args []))) (Some key))
  | E_macro_end s : macro_recording s <> None -> event s (set_macro_recording s None)
  | E_macro_change s key m body : dget str_eqb (macros s) key = Some m ->
      (length (m_body m) <= length body)%nat ->
      event s (set_macros s (dset str_eqb (macros s) key (MkMacro (m_args m) body)))
  | E_define s k v : event s (set_defines s (dset str_eqb (defines s) k v))
  | E_log s b : event s (set_log s b)
  | E_repeat s n tokens : repeat_ s = None -> 1 <= n -> allowed D_repeat tokens ->
      event s (set_repeat s (Some (n, zlen (assembled s))))
  | E_end_repeat s tokens : repeat_ s <> None -> allowed D_endrepeat tokens ->
      event s (set_repeat s None)
  | E_close s : event s (close_section s)
  | E_section s name perms tokens : allowed D_section tokens ->
      dmem str_eqb (sections s) name = false ->
      event s (let s1 := close_section s in
               set_sections s1 (dset str_eqb (sections s1) name
                 (MkSection (pc s1) (zlen (assembled s1)) perms None None)) (Some name))
  | E_export s name : ~ In name (exports s) ->
      event s (set_exports s (exports s ++ [name])).

  Inductive events : st -> st -> Prop :=
  | events_refl s : events s s
  | events_step s s1 s2 : event s s1 -> events s1 s2 -> events s s2.

  Lemma events_trans : forall a b d, events a b -> events b d -> events a d.
  Proof. induction 1; intros; auto. econstructor; eauto. Qed.
  Lemma events_one : forall a b, event a b -> events a b.
  Proof. intros. econstructor; eauto. constructor. Qed.

  Definition runs {A} (m : M A) (s : st) : Prop := events s (fst (m s)).

  Lemma runs_reader : forall A (m : M A) s, reader m -> runs m s.
  Proof. intros A m s R. unfold runs. rewrite R. constructor. Qed.

  Lemma runs_bind : forall A B (m : M A) (k : A -> M B) s, runs m s ->
    (forall a s', m s = (s', Ok a) -> runs (k a) s') -> runs (bind m k) s.
  Proof.
    intros A B m k s H K. unfold runs, bind in *. destruct (m s) as [s' [a|e]] eqn:E; auto.
    cbn [fst] in H. eapply events_trans; [exact H|]. apply K. reflexivity.
  Qed.

  Lemma runs_read : forall A B (m : M A) (k : A -> M B) s, reader m ->
    (forall a, snd (m s) = Ok a -> runs (k a) s) -> runs (bind m k) s.
  Proof.
    intros A B m k s R K. unfold runs. rewrite bind_reader by auto.
    destruct (snd (m s)) eqn:E; [apply K; auto|constructor].
  Qed.

  Lemma runs_get : forall B (k : st -> M B) s, runs (k s) s -> runs (bind get k) s.
  Proof. intros. exact H. Qed.

  Lemma runs_modify : forall f s, event s (f s) -> runs (modify f) s.
  Proof. intros. apply events_one. exact H. Qed.

  Lemma runs_iter : forall A (f : A -> M unit) l s, (forall a s, In a l -> runs (f a) s) ->
    runs (iter f l) s.
  Proof.
    induction l; intros s H; cbn [iter]; [apply runs_reader, reader_ret|].
    apply runs_bind; [apply H; left; auto|]. intros. apply IHl. intros; apply H; right; auto.
  Qed.

  Lemma runs_times : forall n f s, (forall s, runs f s) -> runs (times n f) s.
  Proof.
    induction n; intros f s H; cbn [times]; [apply runs_reader, reader_ret|].
    apply runs_bind; auto.
  Qed.

  (** Emission of bytes. *)
  Lemma runs_emit : forall blob s,
    (static_bytes c -> handlers_bytes c -> Forall is_byte blob) ->
    runs (append_assembled_bytes blob) s.
  Proof. intros. apply runs_modify. apply E_emit. auto. Qed.

  Lemma runs_ref : forall d s, plain_hook d -> ld_bits d = None -> ld_filter d = None ->
    0 < ld_size d -> ld_relative d = 0 -> ld_offset d = 0 ->
    runs (add_label_translation d) s.
  Proof. intros. apply runs_modify. apply E_ref; auto. Qed.
End Events.

(** ** Bytes produced by the packers and readers *)

Lemma le_bytes_byte : forall n v, Forall is_byte (le_bytes n v).
Proof.
  induction n; intros v; cbn [le_bytes]; constructor; auto. unfold is_byte.
  apply Z.mod_pos_bound. lia.
Qed.
Lemma int_bytes_byte : forall be n v, Forall is_byte (int_bytes be n v).
Proof.
  intros [] n v; unfold int_bytes; [apply Forall_rev|]; apply le_bytes_byte.
Qed.
Lemma struct_pack_byte : forall be fs vs b, struct_pack be fs vs = Ok b -> Forall is_byte b.
Proof.
  induction fs as [|f fs IH]; intros [|v vs] b H; cbn [struct_pack] in H; try discriminate.
  - injection H as <-. constructor.
  - unfold struct_pack1 in H.
    match type of H with context [if ?t then _ else _] => destruct t end; cbn [rbind] in H; [|discriminate].
    destruct (struct_pack be fs vs) eqn:E; cbn [rbind] in H; [|discriminate]. injection H as <-.
    apply Forall_app. split; [apply int_bytes_byte|eauto].
Qed.
Lemma fill_blob_byte : forall v n b, fill_blob v n = Ok b -> Forall is_byte b.
Proof.
  intros v n b H. unfold fill_blob in H. destruct (n <=? 0); [injection H as <-; constructor|].
  destruct ((0 <=? v) && (v <? 256)) eqn:E; [|discriminate]. injection H as <-.
  apply andb_true_iff in E. destruct E as [E1 E2]. apply Z.leb_le in E1. apply Z.ltb_lt in E2.
  apply Forall_forall. intros x I. apply repeat_spec in I. subst. split; auto.
Qed.
Lemma ord_byte : forall ch, is_byte (ord ch).
Proof.
  intros ch. unfold is_byte, ord. pose proof (N_ascii_bounded ch). lia.
Qed.
Lemma map_ord_byte : forall t, Forall is_byte (map ord t).
Proof. induction t; constructor; auto. apply ord_byte. Qed.
Lemma encode_ascii_byte : forall t b, encode_ascii t = Ok b -> Forall is_byte b.
Proof.
  induction t; intros b H; cbn [encode_ascii] in H; [injection H as <-; constructor|].
  destruct (ord a <? 128); [|discriminate]. destruct (encode_ascii t); [|discriminate].
  injection H as <-. constructor; auto. apply ord_byte.
Qed.
Lemma encode_utf16_byte : forall t, Forall is_byte (encode_utf16 t).
Proof.
  intros. unfold encode_utf16. constructor; [unfold is_byte; lia|]. constructor; [unfold is_byte; lia|].
  induction t; [constructor|]. cbn [flat_map app]. constructor; [apply ord_byte|].
  constructor; [unfold is_byte; lia|auto].
Qed.
Lemma encode_utf32_byte : forall t, Forall is_byte (encode_utf32 t).
Proof.
  intros. unfold encode_utf32. do 4 (constructor; [unfold is_byte; lia|]).
  induction t; [constructor|]. cbn [flat_map app]. constructor; [apply ord_byte|].
  do 3 (constructor; [unfold is_byte; lia|]). auto.
Qed.
Lemma repeat_byte : forall v n, is_byte v -> Forall is_byte (repeat v n).
Proof. intros. apply Forall_forall. intros x I. apply repeat_spec in I. subst; auto. Qed.
Lemma csv_byte : forall p n pk cols b s b', (forall v b, pk v = Ok b -> Forall is_byte b) ->
  Forall is_byte b -> snd (csv_blob p n pk cols b s) = Ok b' -> Forall is_byte b'.
Proof.
  induction cols; intros b s b' P B H; cbn [csv_blob] in H.
  - injection H as <-. auto.
  - rewrite bind_reader in H by apply reader_parse.
    destruct (snd (m_parse_integer p a n false s)) as [[v|]|]; try discriminate.
    rewrite bind_reader in H by apply reader_lift. cbn [lift snd] in H.
    destruct (pk v) eqn:E; [|discriminate].
    apply IHcols in H; auto. apply Forall_app. split; eauto.
Qed.
Lemma json_byte : forall p items b s b',
  Forall is_byte b -> snd (json_blob p items b s) = Ok b' -> Forall is_byte b'.
Proof.
  induction items as [|it l IH]; intros b s b' B H; cbn [json_blob] in H.
  - injection H as <-. auto.
  - rewrite bind_reader in H.
    2:{ destruct it; try apply reader_ret; try apply reader_praise.
        apply reader_bind; [apply reader_parse|]. intros []; [apply reader_ret|apply reader_araise]. }
    match type of H with context [match ?x with Ok _ => _ | Err _ => _ end] => destruct x as [v|] end;
      [|discriminate].
    rewrite bind_reader in H by apply reader_lift. cbn [lift snd] in H.
    destruct (byte_blob v) eqn:E; [|discriminate].
    apply IH in H; auto. apply Forall_app. split; auto. eapply fill_blob_byte; eauto.
Qed.

(** ** Every run is a sequence of events *)

Section Runs.
  Context (c : cfg) (allowed : directive -> list str -> Prop).
  Let p := c_p c.
  Notation runs := (runs c allowed).

  Ltac rd := first
    [ apply reader_ret | apply reader_raise | apply reader_araise | apply reader_praise
    | apply reader_lift | apply reader_get | apply reader_parse | apply reader_tok_at
    | apply reader_int_arg | apply reader_fill_arg | apply reader_open_file
    | apply reader_parse_bytes | apply reader_csv | apply reader_json ].
  Ltac unlift := repeat match goal with H : snd (lift ?r ?s) = ?x |- _ => change (r = x) in H end.
  (** One step of the walk through a monadic program. *)
  Ltac walk1 :=
    match goal with
    | |- Events.runs _ _ (bind get _) _ => apply runs_get
    | |- Events.runs _ _ (bind _ _) _ => apply runs_read; [solve [rd]|intros; unlift]
    | |- Events.runs _ _ (if ?b then _ else _) _ => destruct b eqn:?
    | |- Events.runs _ _ (match ?x with _ => _ end) _ => destruct x eqn:?
    | |- Events.runs _ _ _ _ => apply runs_reader; solve [rd]
    end.
  Ltac walk := repeat walk1.

  Lemma int_arg_nonneg : forall t n s v, snd (int_arg p t n s) = Ok v -> 1 <= n -> 0 <= v.
  Proof.
    intros t n s v H N. unfold int_arg in H. rewrite bind_reader in H by rd.
    destruct (snd (m_parse_integer p t n false s)) as [[w|]|] eqn:E; try discriminate.
    injection H as <-. cbn [m_parse_integer snd] in E.
    apply parse_integer_range in E; auto. destruct E as [E _]. specialize (E eq_refl). lia.
  Qed.

  Lemma runs_change_org : forall d tokens start stop s, allowed d tokens ->
    d = D_org \/ (d = D_section /\ length tokens = 4%nat) -> 0 <= start -> 0 <= stop ->
    runs (change_org p start stop) s.
  Proof.
    intros d tokens start stop s A D P1 P2. unfold change_org.
    assert (RAW : forall v n s, runs (let! blob := lift (fill_blob v n) in append_raw blob) s).
    { intros v n s'. apply runs_read; [rd|]. intros blob B. unlift. apply runs_modify.
      eapply E_raw; eauto. eapply fill_blob_byte; eauto. }
    walk1; [walk|]. walk1.
    apply runs_bind; [apply runs_modify; eapply E_org; eauto|]. intros [] s' _.
    repeat (apply RAW || walk1).
  Qed.

  Lemma runs_poil : forall t size s, 0 < size ->
    runs (parse_integer_or_label p (plain_ref t size (8 * size)) false) s.
  Proof.
    intros t size s P. unfold parse_integer_or_label. cbv zeta. apply runs_read; [rd|].
    intros [v|] _; [apply runs_reader; rd|].
    apply runs_bind; [apply runs_ref; cbn; auto; left; reflexivity|].
    intros. apply runs_reader; rd.
  Qed.

  Lemma runs_data_token : forall size enc pk t s, 0 < size ->
    (forall t b, enc t = Ok b -> Forall is_byte b) -> (forall v b, pk v = Ok b -> Forall is_byte b) ->
    runs (data_token p size enc pk t) s.
  Proof.
    intros size enc pk t s P E K. unfold data_token. apply runs_read; [rd|]. intros [] _.
    - apply runs_read; [rd|]. intros b B. unlift. apply runs_emit. intros _ _. eapply E; eauto.
    - apply runs_bind; [apply runs_poil; auto|]. intros v s' _.
      apply runs_read; [rd|]. intros b B. unlift. apply runs_emit. intros _ _. eapply K; eauto.
  Qed.

  Lemma runs_to_ascii_token : forall size width u16 t s, 0 < size ->
    runs (to_ascii_token p size width u16 t) s.
  Proof.
    intros size width u16 t s P. unfold to_ascii_token. walk;
      try (apply runs_emit; intros _ _; apply map_ord_byte).
    apply runs_bind.
    - apply runs_ref; try reflexivity; [|exact P]. right. exists width. reflexivity.
    - intros. apply runs_emit. intros _ _. apply repeat_byte. unfold is_byte. lia.
  Qed.

  Lemma runs_end_repeat : forall tokens s, allowed D_endrepeat tokens -> runs (directive_end_repeat tokens) s.
  Proof.
    intros tokens s AL. unfold directive_end_repeat. walk1. destruct (repeat_ s) as [[size index]|] eqn:E;
      [|apply runs_reader; rd].
    apply runs_bind.
    { apply runs_modify. apply (E_end_repeat _ _ _ tokens); [congruence|auto]. }
    intros [] s' H. injection H as <-. cbv zeta.
    assert (G : forall n s', incl (skipn (Z.to_nat index) (assembled s)) (assembled s') ->
      runs (times n (append_assembled_bytes (skipn (Z.to_nat index) (assembled s)))) s').
    { induction n; intros s' I; cbn [times]; [apply runs_reader; rd|].
      apply runs_bind.
      - apply runs_modify. apply E_copy. exact I.
      - intros [] s'' H. injection H as <-. apply IHn. cbn. apply incl_appl. exact I. }
    apply G. cbn. intros x I. rewrite <- (firstn_skipn (Z.to_nat index)). apply in_or_app. auto.
  Qed.

  Lemma change_org_sections : forall start stop s,
    sections (fst (change_org p start stop s)) = sections s.
  Proof.
    intros. unfold change_org. destruct ((0 <? stop) && (stop <? start)); auto.
    unfold bind, get, modify, lift, append_raw, modify, araise, raise, ret.
    repeat match goal with
    | |- context [if ?b then _ else _] => destruct b
    | |- context [fill_blob ?v ?n] => destruct (fill_blob v n)
    end; reflexivity.
  Qed.

  Lemma runs_directive : forall asm d tokens s, allowed d tokens ->
    (d = D_include -> forall n code s, file_text (c_env c) n = Some code -> runs (asm code) s) ->
    runs (run_directive c asm d tokens) s.
  Proof.
    intros asm d tokens s A INC. destruct d; cbn [run_directive]; fold p.
    - unfold macro_start. walk1. destruct (macro_recording s) eqn:E; [apply runs_reader; rd|].
      walk. apply runs_modify. apply E_macro_start; auto.
    - unfold macro_end. walk1. destruct (macro_recording s) eqn:E; [|apply runs_reader; rd].
      apply runs_modify. apply E_macro_end. congruence.
    - unfold directive_org. walk1; [walk|]. walk1. walk1.
      apply runs_read.
      { destruct (len_in tokens [3]%nat); [|rd]. apply reader_bind; [rd|]. intros; rd. }
      intros stop S. eapply runs_change_org; eauto.
      + eapply int_arg_nonneg; eauto. lia.
      + destruct (len_in tokens [3]%nat).
        * rewrite bind_reader in S by rd.
          destruct (snd (tok_at tokens 2 s)); [|discriminate]. eapply int_arg_nonneg; eauto. lia.
        * injection S as <-. lia.
    - unfold directive_include.
      walk. eapply INC; auto.
      match goal with H : snd (open_file _ _ _) = Ok _ |- _ => apply open_file_ok in H end. eauto.
    - unfold directive_incbin. walk. apply runs_emit. intros [_ S] _.
      match goal with H : snd (open_file _ _ _) = Ok _ |- _ => apply open_file_ok in H end. eauto.
    - unfold directive_inccsv. walk. apply runs_emit. intros _ _. eapply csv_byte; eauto.
      intros. eapply fill_blob_byte; eauto.
    - unfold directive_inccsv. walk. apply runs_emit. intros _ _. eapply csv_byte; eauto.
      intros ? ? HH; eapply struct_pack_byte; exact HH.
    - unfold directive_incjson. walk. apply runs_emit. intros _ _. eapply json_byte; eauto.
    - unfold directive_define. walk. apply runs_modify. apply E_define.
    - apply runs_iter. intros. apply runs_data_token; try lia.
      + apply encode_ascii_byte.
      + intros ? ? HH; eapply struct_pack_byte; exact HH.
    - apply runs_iter. intros. apply runs_data_token; try lia.
      + intros t b HH. injection HH as <-. apply encode_utf16_byte.
      + intros v b HH. destruct (big_endian p); eapply struct_pack_byte; exact HH.
    - apply runs_iter. intros. apply runs_data_token; try lia.
      + intros t b HH. injection HH as <-. apply encode_utf32_byte.
      + intros v b HH. destruct (big_endian p); eapply struct_pack_byte; exact HH.
    - apply runs_iter. intros. apply runs_to_ascii_token; lia.
    - apply runs_iter. intros. apply runs_to_ascii_token; lia.
    - apply runs_bind; [apply runs_iter; intros; apply runs_to_ascii_token; lia|].
      intros. apply runs_emit. intros _ _. repeat constructor; unfold is_byte; lia.
    - apply runs_bind; [apply runs_iter; intros; apply runs_to_ascii_token; lia|].
      intros. apply runs_emit. intros _ _. repeat constructor; unfold is_byte; lia.
    - unfold directive_fill. walk. apply runs_emit. intros _ _. eapply fill_blob_byte; eauto.
    - unfold directive_ram. walk. apply runs_modify. eapply E_ram; eauto.
      match goal with H : (_ <? 1) = false |- _ => apply Z.ltb_ge in H; lia end.
    - unfold directive_log.
      destruct tokens as [|? [|t1 ?]]; [apply runs_modify, E_log|apply runs_modify, E_log|].
      walk; apply runs_modify, E_log.
    - unfold directive_align. walk. apply runs_emit. intros _ _. eapply fill_blob_byte; eauto.
    - unfold directive_repeat. walk1. destruct (repeat_ s) eqn:E; [apply runs_reader; rd|].
      walk. apply runs_modify. apply (E_repeat _ _ _ _ tokens); auto.
      match goal with H : (_ <=? 0) = false |- _ => apply Z.leb_gt in H; lia end.
    - apply runs_end_repeat; auto.
    - unfold directive_goto, directive_goto_upto. walk. apply runs_emit. intros _ _. eapply fill_blob_byte; eauto.
    - unfold directive_upto, directive_goto_upto. walk. apply runs_emit. intros _ _. eapply fill_blob_byte; eauto.
    - unfold directive_section. walk1; [walk|]. do 3 walk1. walk1; [walk|]. walk1. walk1; [walk|].
      assert (SEC : forall s1, sections s1 = sections s ->
        runs (modify close_section ;; modify (fun s => set_sections s
          (dset str_eqb (sections s) a0 (MkSection (pc s) (zlen (assembled s)) a1 None None)) (Some a0))) s1).
      { intros s1 E. unfold Events.runs. cbn [bind modify fst]. apply events_one.
        eapply E_section; eauto. rewrite E. auto. }
      destruct (len_in tokens [4]%nat) eqn:L4.
      + assert (length tokens = 4)%nat as L.
        { unfold len_in in L4. cbn in L4. rewrite orb_false_r in L4. apply Nat.eqb_eq; auto. }
        apply runs_bind.
        * apply runs_read; [rd|]. intros t3 _. apply runs_read; [rd|]. intros start S.
          eapply runs_change_org; eauto; [|lia]. eapply int_arg_nonneg; eauto. lia.
        * intros [] s' H'. apply SEC.
          rewrite bind_reader in H' by rd. destruct (snd (tok_at tokens 3 s)) as [t3|]; [|discriminate].
          rewrite bind_reader in H' by rd. destruct (snd (int_arg p t3 64 s)) as [start|]; [|discriminate].
          pose proof (change_org_sections start 0 s) as CS. rewrite H' in CS. exact CS.
      + apply runs_read; [rd|]. intros. apply SEC. reflexivity.
    - unfold directive_export. walk. apply runs_modify. apply E_export.
      match goal with H : str_in _ _ = false |- _ => rename H into X end.
      intros I. apply str_in_In in I. congruence.
    - apply events_one. eapply E_custom; eauto.
  Qed.

  Lemma runs_label : forall tokens s, runs (label_assemble c tokens) s.
  Proof.
    intros tokens s. unfold label_assemble. walk1.
    destruct (macro_recording s) eqn:E; [apply runs_reader; rd|].
    walk1. walk1; [walk|]. walk1; [walk|]. apply runs_read; [rd|]. intros [v|] HP; [walk|].
    apply runs_modify. apply E_label; auto.
    match goal with H : negb _ = false |- _ => apply negb_false_iff in H; exact H end.
  Qed.

  Lemma substitute_length : forall tokens d n,
    length (substitute_with_dict tokens d n) = length tokens.
  Proof.
    intros. unfold substitute_with_dict. rewrite app_length, map_length, <- app_length, firstn_skipn.
    reflexivity.
  Qed.

  (** The directive a statement stands for; the name is never substituted. *)
  Definition directive_of (tokens : list str) : option directive :=
    match tokens with
    | t0 :: _ => dget str_eqb (c_directives c)
                   (if case_sensitive p then skipn 1 t0 else upper (skipn 1 t0))
    | [] => None
    end.
  Definition statement_allowed (x : stmt) : Prop :=
    s_kind x = KDirective -> forall d tokens, directive_of (s_tokens x) = Some d ->
    length tokens = length (s_tokens x) -> allowed d tokens.
  Definition text_allowed (text : str) : Prop :=
    forall ss, tokenize text = Ok ss -> Forall statement_allowed ss.
  Definition files_allowed : Prop :=
    forall n text, file_text (c_env c) n = Some text -> text_allowed text.

  Lemma runs_directive_assemble : forall asm tokens s,
    (forall d tokens', directive_of tokens = Some d -> length tokens' = length tokens ->
       allowed d tokens') ->
    (forall n code s, file_text (c_env c) n = Some code -> runs (asm code) s) ->
    runs (directive_assemble c asm tokens) s.
  Proof.
    intros asm tokens s A INC. unfold directive_assemble. walk1. cbv zeta. walk1. fold p.
    destruct (dget str_eqb (c_directives c) _) as [d|] eqn:E; [|apply runs_reader; rd].
    apply runs_directive; [|intros _; exact INC].
    apply A; [|apply substitute_length].
    destruct tokens as [|t0 rest]; [discriminate|]. injection H as <-. exact E.
  Qed.

  Lemma call_handler_ok : forall f tokens s, fst (call_handler f tokens s) = fst (f tokens s).
  Proof.
    intros. unfold call_handler. destruct (f tokens s) as [s' [[b|]|[e|e]]]; reflexivity.
  Qed.

  Lemma runs_opcode : forall key tokens s, runs (opcode_assemble c key tokens) s.
  Proof.
    intros key tokens s. unfold opcode_assemble.
    destruct (dget str_eqb (c_instructions c) key) as [[b|f]|] eqn:E; [| |walk].
    - walk. apply runs_emit. intros [S _] _. eauto.
    - apply runs_bind.
      + unfold Events.runs. rewrite call_handler_ok. apply events_one. eapply E_handler; eauto.
      + intros b s' H. apply runs_emit. intros _ HB. unfold call_handler in H.
        destruct (f tokens s) as [s1 [[b1|]|[e|e]]] eqn:F; try discriminate. injection H as _ <-.
        eapply (HB key f tokens s); eauto. rewrite F. reflexivity.
  Qed.

  Lemma replace_nth_length : forall A n (v : A) l, length (replace_nth n v l) = length l.
  Proof. induction n; intros v [|a l]; cbn; auto. Qed.

  Lemma runs_store : forall pl tokens s, runs (store_tokens pl tokens) s.
  Proof.
    intros [|key i] tokens s; unfold store_tokens; [walk|].
    unfold Events.runs, modify. cbn [fst].
    destruct (dget str_eqb (macros s) key) as [m|] eqn:E; [|constructor].
    destruct (nth_error (m_body m) i); [|constructor].
    apply events_one. eapply E_macro_change; eauto. rewrite replace_nth_length. lia.
  Qed.

  Lemma runs_macro_loop : forall run key params args n i s,
    (forall pl tokens s, runs (run pl tokens) s) ->
    runs (macro_loop run key params args n i) s.
  Proof.
    induction n; intros i s R; cbn [macro_loop]; [walk|]. walk1.
    destruct (dget str_eqb (macros s) key); [|walk].
    destruct (nth_error (m_body m) i); [|walk]. cbv zeta. walk1.
    apply runs_bind; [apply runs_store|]. intros.
    apply runs_bind; [apply R|]. intros.
    apply runs_bind; [apply runs_store|]. intros. auto.
  Qed.

  Lemma runs_instruction : forall fuel line pl tokens s,
    runs (instruction_assemble c fuel line pl tokens) s.
  Proof.
    assert (REC : forall line tokens key s, runs (modify (fun s =>
          match dget str_eqb (macros s) key with
          | Some m => set_macros s (dset str_eqb (macros s) key
              (MkMacro (m_args m) (m_body m ++ [Stmt KInstruction tokens line])))
          | None => s
          end)) s).
    { intros. unfold Events.runs, modify. cbn [fst].
      destruct (dget str_eqb (macros s) key) eqn:E; [|constructor].
      apply events_one. eapply E_macro_change; eauto. rewrite app_length. lia. }
    induction fuel; intros line pl tokens s; cbn [instruction_assemble]; walk1;
      destruct (macro_recording s); auto; cbv zeta;
      (apply runs_bind; [apply runs_store|]); intros ? ? _; walk1;
      destruct (dget str_eqb (macros s) _); try apply runs_opcode; [walk|].
    apply runs_macro_loop. auto.
  Qed.

  Lemma runs_tail : forall s, runs (assemble_tail c) s.
  Proof.
    intros s. unfold assemble_tail. walk1. fold p. apply runs_bind.
    - walk. apply runs_emit. intros _ _. eapply fill_blob_byte; eauto.
    - intros. apply runs_modify. apply E_close.
  Qed.

  Lemma runs_assemble : files_allowed -> forall fuel text s, text_allowed text ->
    runs (assemble c fuel text) s.
  Proof.
    intros FA. induction fuel; intros text s A; cbn [assemble]; walk1.
    - apply runs_bind; [|intros; apply runs_tail]. apply runs_iter. intros x s' I.
      apply A in H. rewrite Forall_forall in H. specialize (H x I).
      unfold statement_assemble. destruct (s_kind x) eqn:K; [apply runs_instruction|apply runs_label|].
      apply runs_directive_assemble; [intros; apply H; auto|]. intros. walk.
    - apply runs_bind; [|intros; apply runs_tail]. apply runs_iter. intros x s' I.
      apply A in H. rewrite Forall_forall in H. specialize (H x I).
      unfold statement_assemble. destruct (s_kind x) eqn:K; [apply runs_instruction|apply runs_label|].
      apply runs_directive_assemble; [intros; apply H; auto|]. intros. apply IHfuel. eapply FA; eauto.
  Qed.
End Runs.

(** Without restrictions. *)
Definition any_directive : directive -> list str -> Prop := fun _ _ => True.
Lemma assemble_events : forall c fuel text s,
  events c any_directive s (fst (assemble c fuel text s)).
Proof.
  intros. apply runs_assemble.
  - intros n t _ ss _. apply Forall_forall. intros x _ _ d tokens _ _. exact I.
  - intros ss _. apply Forall_forall. intros x _ _ d tokens _ _. exact I.
Qed.
