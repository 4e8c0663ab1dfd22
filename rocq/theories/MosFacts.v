(** Proofs about the 6502 model. *)
From Coq Require Import Lia.
From Verif Require Import Py PyFacts Utils Tokenizer State Assembler SpecUtils UtilsFacts SpecParse ParseFacts SpecSubst
  SpecExec SpecCpu Instr CpuFacts Mos6502 SpecMos.
Local Open Scope Z_scope.

(** ** The opcode table against the manual *)

Definition mode_eqb (a b : mode) : bool :=
  match a, b with
  | Implied, Implied | Accumulator, Accumulator | Immediate, Immediate | ZeroPage, ZeroPage
  | ZeroPageX, ZeroPageX | ZeroPageY, ZeroPageY | Absolute, Absolute | AbsoluteX, AbsoluteX
  | AbsoluteY, AbsoluteY | Indirect, Indirect | IndirectX, IndirectX | IndirectY, IndirectY
  | Relative, Relative => true
  | _, _ => false
  end.
Lemma mode_eqb_eq : forall a b, mode_eqb a b = true <-> a = b.
Proof. intros a b. split; [destruct a, b; auto; discriminate|intros ->; destruct b; reflexivity]. Qed.

Definition all_modes : list mode :=
  [Implied; Accumulator; Immediate; ZeroPage; ZeroPageX; ZeroPageY; Absolute; AbsoluteX; AbsoluteY;
   Indirect; IndirectX; IndirectY; Relative].

(** Keyword of a mode in the calls of _manage_mode. *)
Definition keyword (m : mode) : str :=
  match m with
  | Accumulator => #"accumulator" | Immediate => #"immediate" | ZeroPage => #"zero_page"
  | ZeroPageX => #"zero_page_x" | ZeroPageY => #"zero_page_y" | Absolute => #"absolute"
  | AbsoluteX => #"absolute_x" | AbsoluteY => #"absolute_y" | Indirect => #"indirect"
  | IndirectX => #"indirect_x" | IndirectY => #"indirect_y" | Implied => #"implied" | Relative => #"relative"
  end.

(** The opcode the tables of the model give to a mnemonic in a mode. *)
Definition code_op (mn : str) (m : mode) : option Z :=
  match m with
  | Implied => dget str_eqb mos6502_static mn
  | Relative => dget str_eqb mos6502_branches mn
  | _ => match dget str_eqb mos6502_modes mn with Some kw => dget str_eqb kw (keyword m) | None => None end
  end.

Definition entry_eqb (x y : Z * str * mode) : bool :=
  let '(o, n, m) := x in let '(o', n', m') := y in (o =? o') && str_eqb n n' && mode_eqb m m'.
Lemma entry_eqb_eq : forall x y, entry_eqb x y = true <-> x = y.
Proof.
  intros [[o n] m] [[o' n'] m']. cbn [entry_eqb]. rewrite !andb_true_iff, Z.eqb_eq, str_eqb_eq, mode_eqb_eq.
  split; [intros [[-> ->] ->]; auto|intros E; injection E; auto].
Qed.

Definition code_names : list str :=
  map fst mos6502_modes ++ map fst mos6502_branches ++ map fst mos6502_static.

(** Every entry of the model is in the manual, and every entry of the manual in the
    model. *)
Definition tables_agree : bool :=
  forallb (fun mn => forallb (fun m =>
    match code_op mn m with
    | Some op => existsb (entry_eqb (op, mn, m)) manual
    | None => true
    end) all_modes) code_names &&
  forallb (fun '(op, mn, m) => match code_op mn m with Some o => o =? op | None => false end) manual.
Lemma tables_agree_true : tables_agree = true.
Proof. vm_compute. reflexivity. Qed.

Lemma dget_name : forall V (d : list (str * V)) k v, dget str_eqb d k = Some v -> In k (map fst d).
Proof.
  intros V d k v H. assert (X : dmem str_eqb d k = true) by (unfold dmem; rewrite H; reflexivity).
  clear H. induction d as [|[a x] d IH]; [discriminate|]. unfold dmem in X. cbn [dget] in X.
  destruct (str_eqb k a) eqn:E; [left; symmetry; apply str_eqb_eq; exact E|right; apply IH; exact X].
Qed.

Lemma code_op_iff : forall mn m op, code_op mn m = Some op <-> op_of mn m op.
Proof.
  intros mn m op. pose proof tables_agree_true as T. unfold tables_agree in T. apply andb_prop in T.
  destruct T as [T1 T2]. rewrite forallb_forall in T1, T2. unfold op_of. split.
  - intros H. assert (N : In mn code_names).
    { unfold code_names. rewrite !in_app_iff. unfold code_op in H.
      destruct m; try (right; left; eapply dget_name; exact H); try (right; right; eapply dget_name; exact H);
        destruct (dget str_eqb mos6502_modes mn) eqn:E; try discriminate; left; eapply dget_name; exact E. }
    specialize (T1 _ N). rewrite forallb_forall in T1.
    assert (M : In m all_modes) by (destruct m; cbn; tauto). specialize (T1 _ M). rewrite H in T1.
    apply existsb_exists in T1. destruct T1 as (x & I & E). apply entry_eqb_eq in E. subst x. exact I.
  - intros I. specialize (T2 _ I). cbn beta iota in T2. destruct (code_op mn m); [|discriminate].
    apply Z.eqb_eq in T2. subst. reflexivity.
Qed.

Lemma manual_bytes : forall op mn m, op_of mn m op -> 0 <= op < 256.
Proof.
  intros op mn m H. assert (C : forallb (fun '(o, _, _) => (0 <=? o) && (o <? 256)) manual = true)
    by (vm_compute; reflexivity).
  rewrite forallb_forall in C. specialize (C _ H). cbn beta iota in C. lia.
Qed.

(** A mnemonic is in one of the three tables only. *)
Lemma tables_disjoint : forall mn,
  (forall kw, dget str_eqb mos6502_modes mn = Some kw ->
     dget str_eqb mos6502_branches mn = None /\ dget str_eqb mos6502_static mn = None) /\
  (forall c, dget str_eqb mos6502_branches mn = Some c -> dget str_eqb mos6502_static mn = None).
Proof.
  intros mn.
  assert (C : forallb (fun k => (negb (dmem str_eqb mos6502_modes k) ||
      negb (dmem str_eqb mos6502_branches k) && negb (dmem str_eqb mos6502_static k)) &&
      (negb (dmem str_eqb mos6502_branches k) || negb (dmem str_eqb mos6502_static k))) code_names = true)
    by (vm_compute; reflexivity).
  rewrite forallb_forall in C. unfold dmem in C. split.
  - intros kw H. assert (I : In mn code_names) by (unfold code_names; rewrite in_app_iff; left; eapply dget_name; eauto).
    specialize (C _ I). cbv beta in C. rewrite H in C.
    destruct (dget str_eqb mos6502_branches mn), (dget str_eqb mos6502_static mn); try discriminate. auto.
  - intros c H. assert (I : In mn code_names) by (unfold code_names; rewrite !in_app_iff; right; left; eapply dget_name; eauto).
    specialize (C _ I). cbv beta in C. rewrite H in C.
    destruct (dget str_eqb mos6502_modes mn), (dget str_eqb mos6502_static mn); try discriminate. auto.
Qed.

Lemma mos_instructions : forall e, c_instructions (mos6502 e) = mos6502_ops.
Proof.
  intros e. unfold mos6502, mk_cfg, c_instructions.
  apply register_all_id; [reflexivity|vm_compute; reflexivity|vm_compute; reflexivity].
Qed.

Lemma mos_lookup : forall e mn, dget str_eqb (c_instructions (mos6502 e)) mn =
  match dget str_eqb mos6502_modes mn with
  | Some kw => Some (OFun (manage_mode kw))
  | None => match dget str_eqb mos6502_branches mn with
            | Some c => Some (OFun (manage_branching c))
            | None => option_map (fun k => OStatic [k]) (dget str_eqb mos6502_static mn)
            end
  end.
Proof.
  intros. rewrite mos_instructions. unfold mos6502_ops. rewrite !dget_app, !dget_map.
  destruct (dget str_eqb mos6502_modes mn); [reflexivity|].
  destruct (dget str_eqb mos6502_branches mn); reflexivity.
Qed.

Lemma kwargs_known : forall mn kw, dget str_eqb mos6502_modes mn = Some kw ->
  forallb (fun '(k, _) => str_in k available_modes) kw = true.
Proof.
  intros mn kw H.
  assert (C : forallb (fun '(_, kw) => forallb (fun '(k, _) => str_in k available_modes) kw) mos6502_modes = true)
    by (vm_compute; reflexivity).
  rewrite forallb_forall in C.
  assert (I : In (mn, kw) mos6502_modes).
  { clear C. induction mos6502_modes as [|[a x] d IH]; [discriminate|]. cbn [dget] in H.
    destruct (str_eqb mn a) eqn:E; [left; apply str_eqb_eq in E; congruence|right; auto]. }
  apply C in I. exact I.
Qed.

(** ** Operands *)

Lemma word_check : forall t, check_address t = true <-> word t.
Proof.
  intros t. unfold check_address, word. rewrite nonempty_eqb. destruct t as [|c r].
  - split; [discriminate|]. intros (c & r & E & _). discriminate.
  - cbn [list_ascii_of_string starts_with]. rewrite andb_true_l. split.
    + intros H. exists c, r. split; auto. intros ->. discriminate.
    + intros (c' & r' & E & N). injection E as <- <-. destruct (Ascii.eqb "#" c) eqn:X; auto.
      apply Ascii.eqb_eq in X. congruence.
Qed.
Lemma hash_check : forall t, check_immediate t = true <-> exists r, t = "#"%char :: r /\ r <> [].
Proof.
  intros t. unfold check_immediate. destruct t as [|c r].
  - split; [discriminate|]. intros (r & E & _). discriminate.
  - cbn [list_ascii_of_string starts_with length]. split.
    + intros H. apply andb_prop in H. destruct H as [L E]. destruct (Ascii.eqb "#" c) eqn:X; [|discriminate].
      apply Ascii.eqb_eq in X. subst c. exists r. split; auto. intros ->. discriminate.
    + intros (r' & E & N). injection E as -> ->. destruct r'; [congruence|reflexivity].
Qed.

(** Which form of operand, as _manage_mode decides it. *)
Definition classify (ops : list str) : option operand :=
  match ops with
  | [a] => if str_eqb (upper a) #"A" then Some A_
           else if check_immediate a then Some (Hash (skipn 1 a))
           else if check_address a then Some (Direct a) else None
  | [t; x] => if check_address t then
                if str_eqb (upper x) #"X" then Some (DirectX t)
                else if str_eqb (upper x) #"Y" then Some (DirectY t) else None
              else None
  | [a; t; z] => if str_eqb (upper a) #"(" && (check_address t && str_eqb (upper z) #")")
                 then Some (Paren t) else None
  | [a; t; x; z] =>
      if str_eqb (upper a) #"(" && (check_address t && (str_eqb (upper x) #"X" && str_eqb (upper z) #")"))
      then Some (ParenX t)
      else if str_eqb (upper a) #"(" && (check_address t && (str_eqb (upper x) #")" && str_eqb (upper z) #"Y"))
      then Some (ParenY t) else None
  | _ => None
  end.

Lemma upper_open : forall t, upper t = #"(" -> t = #"(".
Proof. intros t H. apply (upper_nonletter1 t "("%char); [exact H|left; reflexivity]. Qed.
Lemma upper_close : forall t, upper t = #")" -> t = #")".
Proof. intros t H. apply (upper_nonletter1 t ")"%char); [exact H|left; reflexivity]. Qed.

Lemma classify_written : forall ops o, classify ops = Some o -> written ops o.
Proof.
  intros ops o H. unfold classify in H.
  destruct ops as [|a [|t [|x [|z [|]]]]]; try discriminate.
  - destruct (str_eqb (upper a) #"A") eqn:E1; [injection H as <-; apply str_eqb_eq in E1; constructor; auto|].
    apply str_eqb_neq in E1.
    destruct (check_immediate a) eqn:E2.
    + apply hash_check in E2. destruct E2 as (r & -> & N). injection H as <-. constructor. auto.
    + destruct (check_address a) eqn:E3; [|discriminate]. injection H as <-. constructor; auto.
      apply word_check; auto.
  - destruct (check_address a) eqn:E1; [|discriminate]. apply word_check in E1.
    destruct (str_eqb (upper t) #"X") eqn:E2; [apply str_eqb_eq in E2; injection H as <-; constructor; auto|].
    destruct (str_eqb (upper t) #"Y") eqn:E3; [|discriminate]. apply str_eqb_eq in E3. injection H as <-. constructor; auto.
  - destruct (str_eqb (upper a) #"(") eqn:E1; [|discriminate]. destruct (check_address t) eqn:E2; [|discriminate].
    destruct (str_eqb (upper x) #")") eqn:E3; [|discriminate]. injection H as <-.
    apply str_eqb_eq in E1, E3. apply upper_open in E1. apply upper_close in E3. subst.
    constructor. apply word_check; auto.
  - destruct (str_eqb (upper a) #"(") eqn:E1; [|discriminate]. apply str_eqb_eq, upper_open in E1. subst a.
    destruct (check_address t) eqn:E2; [|discriminate]. apply word_check in E2. cbn [andb] in H.
    destruct (str_eqb (upper x) #"X" && str_eqb (upper z) #")") eqn:E3.
    + apply andb_prop in E3. destruct E3 as [E3 E4]. apply str_eqb_eq in E3, E4. apply upper_close in E4. subst z.
      injection H as <-. constructor; auto.
    + destruct (str_eqb (upper x) #")" && str_eqb (upper z) #"Y") eqn:E4; [|discriminate].
      apply andb_prop in E4. destruct E4 as [E4 E5]. apply str_eqb_eq in E4, E5. apply upper_close in E4. subst x.
      injection H as <-. constructor; auto.
Qed.

Definition framed (o : operand) : bool := match o with NoOperand | Target _ => false | _ => true end.

Lemma written_classify : forall ops o, written ops o -> framed o = true -> classify ops = Some o.
Proof.
  intros ops o W F. destruct W; try discriminate F; cbn [classify].
  - rewrite H. reflexivity.
  - assert (U : str_eqb (upper ("#"%char :: t)) #"A" = false).
    { apply str_eqb_neq. cbn [upper map list_ascii_of_string]. intros X. injection X as X _. discriminate. }
    rewrite U. replace (check_immediate ("#"%char :: t)) with true; [reflexivity|].
    symmetry. apply hash_check. eauto.
  - apply str_eqb_neq in H0. rewrite H0.
    replace (check_immediate t) with false.
    2:{ symmetry. destruct (check_immediate t) eqn:E; auto. apply hash_check in E. destruct E as (r & -> & _).
        destruct H as (c & r' & X & Y). injection X as <- _. congruence. }
    apply word_check in H. rewrite H. reflexivity.
  - apply word_check in H. rewrite H, H0. reflexivity.
  - apply word_check in H. rewrite H, H0. reflexivity.
  - apply word_check in H. rewrite H. reflexivity.
  - apply word_check in H. rewrite H, H0. reflexivity.
  - apply word_check in H. rewrite H, H0. reflexivity.
Qed.

(** The branch of _manage_mode taken for an operand. *)
Definition mode_case (kw : list (str * Z)) (o : operand) : M (option bytes) :=
  match o with
  | A_ => let! c := kwarg kw #"accumulator" in
          let! b := lift (pack_byte [Some c]) in ret (Some b)
  | Hash t => let! c := kwarg kw #"immediate" in
              let! v := parse_integer_or_label mos6502_p (LabelData t 1 8 0 1 1 None None None) false in
              let! b := lift (pack_byte [Some c; Some v]) in ret (Some b)
  | Direct t => manage_address (dget str_eqb kw #"absolute") (dget str_eqb kw #"zero_page") t
  | DirectX t => manage_address (dget str_eqb kw #"absolute_x") (dget str_eqb kw #"zero_page_x") t
  | DirectY t => manage_address (dget str_eqb kw #"absolute_y") (dget str_eqb kw #"zero_page_y") t
  | Paren t => let! c := kwarg kw #"indirect" in manage_address (Some c) None t
  | ParenX t => let! c := kwarg kw #"indirect_x" in manage_address None (Some c) t
  | ParenY t => let! c := kwarg kw #"indirect_y" in manage_address None (Some c) t
  | _ => araise InvalidMode
  end.

Lemma im_a : forall t, imatch1 (PStr #"A") t = str_eqb (upper t) #"A".
Proof. intros. apply (imatch1_chr "A"%char). Qed.
Lemma im_x : forall t, imatch1 (PStr #"X") t = str_eqb (upper t) #"X".
Proof. intros. apply (imatch1_chr "X"%char). Qed.
Lemma im_y : forall t, imatch1 (PStr #"Y") t = str_eqb (upper t) #"Y".
Proof. intros. apply (imatch1_chr "Y"%char). Qed.
Lemma im_open : forall t, imatch1 (PStr #"(") t = str_eqb (upper t) #"(".
Proof. intros. apply (imatch1_chr "("%char). Qed.
Lemma im_close : forall t, imatch1 (PStr #")") t = str_eqb (upper t) #")".
Proof. intros. apply (imatch1_chr ")"%char). Qed.
Lemma im_fun : forall f t, imatch1 (PFun f) t = f t.
Proof. reflexivity. Qed.

Lemma eke_ext : forall A (m m' : M A) s, m s = m' s -> except_key_error m s = except_key_error m' s.
Proof. intros A m m' s H. unfold except_key_error. rewrite H. reflexivity. Qed.

Lemma manage_mode_eq : forall kw t0 ops s, forallb (fun '(k, _) => str_in k available_modes) kw = true ->
  manage_mode kw (t0 :: ops) s =
    except_key_error (match classify ops with Some o => mode_case kw o | None => araise InvalidMode end) s.
Proof.
  intros kw t0 ops s K. unfold manage_mode. rewrite K. cbn [negb]. apply eke_ext.
  unfold imatch. cbn [skipn length Nat.add].
  destruct ops as [|a [|t [|x [|z [|w ops]]]]]; cbn [length Nat.eqb andb classify match_all];
    rewrite ?im_a, ?im_x, ?im_y, ?im_open, ?im_close, ?im_fun, ?andb_true_r; try reflexivity.
  - destruct (str_eqb (upper a) #"A"); [reflexivity|].
    destruct (check_immediate a); [reflexivity|]. destruct (check_address a); reflexivity.
  - destruct (check_address a); [|reflexivity]. cbn [andb].
    destruct (str_eqb (upper t) #"X"); [reflexivity|]. destruct (str_eqb (upper t) #"Y"); reflexivity.
  - destruct (str_eqb (upper a) #"(" && (check_address t && str_eqb (upper x) #")")); reflexivity.
  - destruct (str_eqb (upper a) #"(" && (check_address t && (str_eqb (upper x) #"X" && str_eqb (upper z) #")")));
      [reflexivity|].
    destruct (str_eqb (upper a) #"(" && (check_address t && (str_eqb (upper x) #")" && str_eqb (upper z) #"Y")));
      reflexivity.
Qed.

(** ** Results *)

Lemma zero_page_iff : forall v, is_zero_page v = true <-> 0 <= v < 256.
Proof. intros. unfold is_zero_page. split; intros; lia. Qed.

Lemma le2_bytes : forall v, 0 <= v < 65536 -> le_bytes 2 v = [v mod 256; v / 256].
Proof.
  intros v H. cbn [le_bytes]. rewrite (Z.mod_small (v / 256)); [reflexivity|].
  split; [apply Z.div_pos; lia|apply Z.div_lt_upper_bound; lia].
Qed.
Lemma land_byte : forall v, 0 <= v < 256 -> Z.land v 255 = v.
Proof. intros v H. change 255 with (2 ^ 8 - 1). rewrite land_ones_mod by lia. apply Z.mod_small. exact H. Qed.
Lemma pack_ub : forall v, 0 <= v < 256 -> struct_pack1 false FB v = Ok [v].
Proof.
  intros v H. unfold struct_pack1. cbn [sf_signed sf_size]. change (2 ^ (8 * Z.of_nat 1)) with 256.
  replace ((0 <=? v) && (v <? 256)) with true by lia. cbn [int_bytes le_bytes].
  rewrite Z.mod_small by exact H. reflexivity.
Qed.
Lemma pack_byte1 : forall a, 0 <= a < 256 -> pack_byte [Some a] = Ok [a].
Proof.
  intros a A. unfold pack_byte, pack_u. cbn [map masked struct_pack].
  rewrite land_byte by auto. rewrite pack_ub by auto. reflexivity.
Qed.
Lemma pack_byte2 : forall a b, 0 <= a < 256 -> 0 <= b < 256 -> pack_byte [Some a; Some b] = Ok [a; b].
Proof.
  intros a b A B. unfold pack_byte, pack_u. cbn [map masked struct_pack].
  rewrite !land_byte by auto. rewrite !pack_ub by auto. reflexivity.
Qed.
Lemma pack_bh : forall a v, 0 <= a < 256 -> 0 <= v < 65536 ->
  pack false [FB; FH] [a; v] = Ok [a; v mod 256; v / 256].
Proof.
  intros a v A V. unfold pack. cbn [struct_pack]. rewrite pack_ub by auto. cbn [rbind].
  unfold struct_pack1. cbn [sf_signed sf_size]. change (2 ^ (8 * Z.of_nat 2)) with 65536.
  replace ((0 <=? v) && (v <? 65536)) with true by lia. cbn [rbind int_bytes]. rewrite le2_bytes by auto. reflexivity.
Qed.
Lemma pack_bb : forall a v, 0 <= a < 256 ->
  pack false [FB; Fb] [a; v] = if (-128 <=? v) && (v <? 128) then Ok [a; v mod 256] else Err (PExc StructError).
Proof.
  intros a v A. unfold pack. cbn [struct_pack]. rewrite pack_ub by auto. cbn [rbind].
  unfold struct_pack1. cbn [sf_signed sf_size]. change (2 ^ (8 * Z.of_nat 1 - 1)) with 128.
  change (- (128)) with (-128).
  destruct ((-128 <=? v) && (v <? 128)); reflexivity.
Qed.

Lemma manage_address_eq : forall abs zp t s,
  (forall a, abs = Some a -> 0 <= a < 256) -> (forall z, zp = Some z -> 0 <= z < 256) ->
  manage_address abs zp t s =
    match parse_integer mos6502_p (labels s) t 16 false with
    | Err e => (s, Err e)
    | Ok (Some v) =>
        match zp, is_zero_page v with
        | Some z, true => (s, Ok (Some [z; v]))
        | _, _ => match abs with
                  | None => (s, Err (AExc AbsoluteAddressNotAllowed))
                  | Some a => (s, Ok (Some [a; v mod 256; v / 256]))
                  end
        end
    | Ok None =>
        match label_absolute mos6502_p (labels s) t with
        | Err e => (s, Err e)
        | Ok k =>
            match zp, k with
            | Some z, Some v => if is_zero_page v then (s, Ok (Some [z; v])) else
                match abs with
                | None => (s, Err (AExc AbsoluteAddressNotAllowed))
                | Some a => (referring s [ref t 2 16 1 0], Ok (Some [a; 0; 0]))
                end
            | _, _ => match abs with
                      | None => (s, Err (AExc AbsoluteAddressNotAllowed))
                      | Some a => (referring s [ref t 2 16 1 0], Ok (Some [a; 0; 0]))
                      end
            end
        end
    end.
Proof.
  intros abs zp t s A Z. unfold manage_address. unfold bind at 1. unfold m_parse_integer.
  destruct (parse_integer mos6502_p (labels s) t 16 false) as [[v|]|e] eqn:P; [| |reflexivity].
  - apply parse_integer_range in P; [|lia]. destruct P as [P _]. specialize (P eq_refl). change (2 ^ 16) with 65536 in P.
    destruct zp as [z|].
    + destruct (is_zero_page v) eqn:ZP.
      * apply zero_page_iff in ZP. unfold bind, lift. rewrite pack_byte2 by auto. reflexivity.
      * destruct abs as [a|]; [|reflexivity]. unfold bind, lift. rewrite pack_bh by auto. reflexivity.
    + destruct abs as [a|]; [|reflexivity]. unfold bind, lift. rewrite pack_bh by auto. reflexivity.
  - unfold bind at 1. unfold m_label_absolute.
    destruct (label_absolute mos6502_p (labels s) t) as [k|e]; [|reflexivity].
    assert (Q : forall a, abs = Some a ->
       (add_label_translation (LabelData t 2 16 0 1 1 None None None) ;;
          (let! b := lift (pack false [FB; FH] [a; 0]) in ret (Some b))) s =
       (referring s [ref t 2 16 1 0], Ok (Some [a; 0; 0]))).
    { intros a E. unfold bind at 1, add_label_translation, modify. unfold bind, lift.
      rewrite pack_bh by (auto; lia). reflexivity. }
    destruct zp as [z|], k as [v|]; try (destruct abs as [a|]; [apply Q; reflexivity|reflexivity]).
    destruct (is_zero_page v) eqn:ZP.
    + apply zero_page_iff in ZP. unfold bind, lift. rewrite pack_byte2 by auto. reflexivity.
    + destruct abs as [a|]; [apply Q; reflexivity|reflexivity].
Qed.

Lemma eke_ok : forall A (m : M A) s s1 a, except_key_error m s = (s1, Ok a) <-> m s = (s1, Ok a).
Proof.
  intros A m s s1 a. unfold except_key_error. destruct (m s) as [s' [x|[e|e]]]; try reflexivity.
  destruct e; split; intros H; try discriminate.
Qed.

Lemma unum_range : forall p lbls t n v, parse_integer p lbls t n false = Ok (Some v) -> 1 <= n -> 0 <= v < 2 ^ n.
Proof.
  intros p lbls t n v H N. destruct (parse_integer_range p lbls t n false v N H) as [X _]. apply X. reflexivity.
Qed.

Definition code_opt (mn : str) (m : option mode) : option Z :=
  match m with Some m => code_op mn m | None => None end.
Lemma has_code : forall mn m, has mn m <-> code_opt mn m <> None.
Proof.
  intros mn m. unfold has. split.
  - intros (m' & op & -> & H). apply code_op_iff in H. cbn [code_opt]. rewrite H. discriminate.
  - intros H. destruct m as [m|]; [|elim H; reflexivity]. cbn [code_opt] in H. destruct (code_op mn m) as [op|] eqn:E; [|elim H; reflexivity].
    exists m, op. split; auto. apply code_op_iff. exact E.
Qed.
Lemma code_opt_byte : forall mn m a, code_opt mn m = Some a -> 0 <= a < 256.
Proof.
  intros mn [m|] a H; [|discriminate]. cbn [code_opt] in H. apply code_op_iff in H. eapply manual_bytes; eauto.
Qed.

Lemma addressed_result : forall s mn o t sm lm s1 b, addressed o = Some (t, sm, lm) ->
  manage_address (code_opt mn lm) (code_opt mn sm) t s = (s1, Ok (Some b)) <->
  exists ds, encodes s mn o b ds /\ s1 = referring s ds.
Proof.
  intros s mn o t sm lm s1 b AD. rewrite manage_address_eq by (apply code_opt_byte).
  split.
  - intros H. destruct (parse_integer mos6502_p (labels s) t 16 false) as [[v|]|e] eqn:P; [| |discriminate].
    + assert (R : 0 <= v < 65536).
      { apply (unum_range _ _ _ _ _ P). lia. }
      assert (N : num mos_p s t 16 false v) by exact P.
      destruct (code_opt mn sm) as [z|] eqn:ZP.
      * destruct (is_zero_page v) eqn:IZ.
        -- injection H as <- <-. exists []. split; [|reflexivity]. apply zero_page_iff in IZ.
           destruct sm as [m|]; [|discriminate]. eapply en_short; eauto. { apply code_op_iff. exact ZP. }
           apply a_number. exact N.
        -- destruct (code_opt mn lm) as [a|] eqn:AB; [|discriminate]. injection H as <- <-. exists [].
           split; [|reflexivity]. destruct lm as [m|]; [|discriminate].
           eapply en_long; eauto. { apply code_op_iff. exact AB. }
           intros _. destruct (Z.leb_spec 256 v); auto. exfalso.
           assert (X : is_zero_page v = true) by (apply zero_page_iff; lia). congruence.
      * destruct (code_opt mn lm) as [a|] eqn:AB; [|discriminate]. injection H as <- <-. exists [].
        split; [|reflexivity]. destruct lm as [m|]; [|discriminate].
        eapply en_long; eauto. { apply code_op_iff. exact AB. }
        intros X. apply has_code in X. congruence.
    + assert (N : not_num mos_p s t 16 false) by exact P.
      destruct (label_absolute mos6502_p (labels s) t) as [k|e] eqn:L; [|discriminate].
      assert (Q : forall a, code_opt mn lm = Some a -> (forall v, k = Some v -> has mn sm -> ~ 0 <= v < 256) ->
        encodes s mn o [a; 0; 0] [ref t 2 16 1 0]).
      { intros a E X. destruct lm as [m|]; [|discriminate]. eapply en_long_name; eauto. apply code_op_iff. exact E. }
      destruct (code_opt mn sm) as [z|] eqn:ZP; [destruct k as [v|]; [destruct (is_zero_page v) eqn:IZ|]|].
      * injection H as <- <-. exists []. split; [|reflexivity]. apply zero_page_iff in IZ.
        destruct sm as [m|]; [|discriminate]. eapply en_short; eauto. { apply code_op_iff. exact ZP. }
        apply a_label; auto.
      * destruct (code_opt mn lm) as [a|] eqn:AB; [|discriminate]. injection H as <- <-. exists [ref t 2 16 1 0]. split; [|reflexivity].
        apply Q; auto. intros v' E _ X. injection E as <-. apply zero_page_iff in X. congruence.
      * destruct (code_opt mn lm) as [a|] eqn:AB; [|discriminate]. injection H as <- <-. exists [ref t 2 16 1 0]. split; [|reflexivity].
        apply Q; auto. intros v' E. discriminate.
      * destruct (code_opt mn lm) as [a|] eqn:AB; [|destruct k; discriminate].
        assert (H' : (referring s [ref t 2 16 1 0], Ok (Some [a; 0; 0])) = (s1, Ok (Some b))) by (destruct k; exact H).
        injection H' as <- <-. exists [ref t 2 16 1 0]. split; [|reflexivity].
        apply Q; auto. intros v' _ X. apply has_code in X. congruence.
  - intros (ds & EN & ->). destruct EN; try discriminate AD; rename H into A0; rewrite AD in A0; injection A0 as E1 E2 E3; subst.
    + (* short *)
      apply code_op_iff in H0. cbn [code_opt]. rewrite H0. apply zero_page_iff in H2.
      inversion H1; subst.
      * unfold num in H. change mos6502_p with mos_p. rewrite H, H2. reflexivity.
      * unfold not_num in H. change mos6502_p with mos_p. rewrite H, H3, H2. reflexivity.
    + apply code_op_iff in H0. cbn [code_opt]. rewrite H0. unfold num in H1. change mos6502_p with mos_p. rewrite H1.
      destruct (code_opt mn sh) as [z|] eqn:ZP; [|reflexivity].
      destruct (is_zero_page v) eqn:IZ; [|reflexivity]. apply zero_page_iff in IZ. exfalso.
      assert (X : has mn sh) by (apply has_code; congruence). apply H2 in X. lia.
    + apply code_op_iff in H0. cbn [code_opt]. rewrite H0. unfold not_num in H1. change mos6502_p with mos_p. rewrite H1, H2.
      destruct (code_opt mn sh) as [z|] eqn:ZP; [|destruct known; reflexivity].
      destruct known as [v|]; [|reflexivity]. destruct (is_zero_page v) eqn:IZ; [|reflexivity].
      apply zero_page_iff in IZ. exfalso. apply (H3 v); auto. apply has_code. congruence.
Qed.

Lemma kwarg_bind : forall kw k (f : Z -> M (option bytes)) s s1 b,
  (let! c := kwarg kw k in f c) s = (s1, Ok (Some b)) <->
  exists c, dget str_eqb kw k = Some c /\ f c s = (s1, Ok (Some b)).
Proof.
  intros. unfold bind, kwarg. destruct (dget str_eqb kw k) as [c|].
  - cbn [ret]. split; [intros H; exists c; auto|intros (c' & E & H); injection E as <-; exact H].
  - cbn. split; [discriminate|]. intros (c' & E & _). discriminate.
Qed.

Lemma mode_result : forall s mn kw o s1 b, dget str_eqb mos6502_modes mn = Some kw -> framed o = true ->
  mode_case kw o s = (s1, Ok (Some b)) <-> exists ds, encodes s mn o b ds /\ s1 = referring s ds.
Proof.
  intros s mn kw o s1 b KW FR.
  assert (CO : forall m, m <> Implied -> m <> Relative -> code_op mn m = dget str_eqb kw (keyword m)).
  { intros m A B. unfold code_op. rewrite KW. destruct m; auto; congruence. }
  assert (PA : forall t m, addressed o = Some (t, None, Some m) -> m <> Implied -> m <> Relative ->
     (exists c, dget str_eqb kw (keyword m) = Some c /\ manage_address (Some c) None t s = (s1, Ok (Some b))) <->
     exists ds, encodes s mn o b ds /\ s1 = referring s ds).
  { intros t m AD A B. rewrite <- (addressed_result _ _ _ _ _ _ _ _ AD). cbn [code_opt]. rewrite CO by auto. split.
    - intros (c & -> & H). exact H.
    - intros H. destruct (dget str_eqb kw (keyword m)) as [c|]; [eauto|]. exfalso.
      rewrite manage_address_eq in H by discriminate.
      destruct (parse_integer mos6502_p (labels s) t 16 false) as [[v|]|e]; try discriminate.
      destruct (label_absolute mos6502_p (labels s) t) as [[v|]|e]; discriminate. }
  assert (PZ : forall t m, addressed o = Some (t, Some m, None) -> m <> Implied -> m <> Relative ->
     (exists c, dget str_eqb kw (keyword m) = Some c /\ manage_address None (Some c) t s = (s1, Ok (Some b))) <->
     exists ds, encodes s mn o b ds /\ s1 = referring s ds).
  { intros t m AD A B. rewrite <- (addressed_result _ _ _ _ _ _ _ _ AD). cbn [code_opt]. rewrite CO by auto. split.
    - intros (c & -> & H). exact H.
    - intros H. destruct (dget str_eqb kw (keyword m)) as [c|]; [eauto|]. exfalso.
      rewrite manage_address_eq in H by discriminate.
      destruct (parse_integer mos6502_p (labels s) t 16 false) as [[v|]|e]; try discriminate.
      destruct (label_absolute mos6502_p (labels s) t) as [[v|]|e]; discriminate. }
  destruct o; try discriminate FR; unfold mode_case; rewrite ?kwarg_bind.
  - (* accumulator *)
    split.
    + intros (c & E & H). pose proof (CO Accumulator ltac:(discriminate) ltac:(discriminate)) as CE. cbn [keyword] in CE. rewrite <- CE in E. apply code_op_iff in E.
      unfold bind, lift in H. rewrite pack_byte1 in H by (eapply manual_bytes; eauto). injection H as <- <-.
      exists []. split; [constructor; auto|reflexivity].
    + intros (ds & EN & ->). inversion EN; subst; try discriminate.
      match goal with X : op_of mn Accumulator _ |- _ => rename X into H end.
      exists op. pose proof H as B. apply code_op_iff in H. rewrite CO in H by discriminate. cbn [keyword] in H. split; auto.
      unfold bind, lift. rewrite pack_byte1 by (eapply manual_bytes; eauto). reflexivity.
  - (* immediate *)
    split.
    + intros (c & E & H). pose proof (CO Immediate ltac:(discriminate) ltac:(discriminate)) as CE. cbn [keyword] in CE. rewrite <- CE in E. apply code_op_iff in E.
      unfold bind in H. rewrite poil_eq in H. cbn [ld_label ld_bits_size ld_relative] in H.
      change (false || negb (0 =? 0)) with false in H.
      destruct (parse_integer mos6502_p (labels s) t 8 false) as [[v|]|e] eqn:P; [| |discriminate].
      * pose proof (unum_range _ _ _ _ _ P ltac:(lia)) as X. change (2 ^ 8) with 256 in X.
        unfold lift in H. rewrite pack_byte2 in H by (auto; eapply manual_bytes; eauto). injection H as <- <-.
        exists []. split; [constructor; auto|reflexivity].
      * unfold lift in H. rewrite pack_byte2 in H by (try lia; eapply manual_bytes; eauto). injection H as <- <-.
        exists [ref t 1 8 1 0]. split; [apply en_immediate_name; auto|reflexivity].
    + intros (ds & EN & ->). inversion EN; subst; try discriminate;
        (match goal with X : op_of mn Immediate _ |- _ => rename X into H end;
         match goal with X : num _ _ _ _ _ _ |- _ => rename X into H0 | X : not_num _ _ _ _ _ |- _ => rename X into H0 end;
         exists op; pose proof H as B; apply code_op_iff in H; rewrite CO in H by discriminate; cbn [keyword] in H; split; auto;
         unfold bind; rewrite poil_eq; cbn [ld_label ld_bits_size ld_relative];
         change (false || negb (0 =? 0)) with false).
      * unfold num in H0. change mos6502_p with mos_p. rewrite H0.
        pose proof (unum_range _ _ _ _ _ H0 ltac:(lia)) as X. change (2 ^ 8) with 256 in X.
        unfold lift. rewrite pack_byte2 by (auto; eapply manual_bytes; eauto). reflexivity.
      * unfold not_num in H0. change mos6502_p with mos_p. rewrite H0.
        unfold lift. rewrite pack_byte2 by (try lia; eapply manual_bytes; eauto). reflexivity.
  - rewrite <- (addressed_result s mn (Direct t) t (Some ZeroPage) (Some Absolute) s1 b eq_refl).
    cbn [code_opt]. rewrite !CO by discriminate. reflexivity.
  - rewrite <- (addressed_result s mn (DirectX t) t (Some ZeroPageX) (Some AbsoluteX) s1 b eq_refl).
    cbn [code_opt]. rewrite !CO by discriminate. reflexivity.
  - rewrite <- (addressed_result s mn (DirectY t) t (Some ZeroPageY) (Some AbsoluteY) s1 b eq_refl).
    cbn [code_opt]. rewrite !CO by discriminate. reflexivity.
  - apply (PA t Indirect eq_refl); discriminate.
  - apply (PZ t IndirectX eq_refl); discriminate.
  - apply (PZ t IndirectY eq_refl); discriminate.
Qed.

Lemma branch_result : forall s mn code t0 ops s1 b, dget str_eqb mos6502_branches mn = Some code ->
  manage_branching code (t0 :: ops) s = (s1, Ok (Some b)) <->
  exists t rest ds, ops = t :: rest /\ encodes s mn (Target t) b ds /\ s1 = referring s ds.
Proof.
  intros s mn code t0 ops s1 b H.
  assert (CO : op_of mn Relative code) by (apply code_op_iff; exact H).
  assert (BY : 0 <= code < 256) by (eapply manual_bytes; eauto).
  unfold manage_branching. unfold bind at 1, tok_at. cbn [nth_error].
  destruct ops as [|t rest]; cbn [nth_error].
  - split; [discriminate|]. intros (t & rest & ds & E & _). discriminate.
  - cbn [ret]. unfold bind at 1, get. unfold bind at 1. rewrite poil_eq. cbn [ld_label ld_bits_size ld_relative].
    change (false || negb (pc s + 2 =? 0)) with (negb (pc s + 2 =? 0)).
    split.
    + intros X. exists t, rest.
      destruct (parse_integer mos6502_p (labels s) t 8 (negb (pc s + 2 =? 0))) as [[v|]|e] eqn:P; [| |discriminate].
      * unfold bind, lift in X. rewrite pack_bb in X by auto.
        destruct ((-128 <=? v) && (v <? 128)) eqn:R; [|discriminate]. injection X as <- <-.
        exists []. split; auto. split; [|reflexivity]. apply en_branch; auto. lia.
      * unfold bind, lift in X. rewrite pack_bb in X by auto. cbn in X. injection X as <- <-.
        exists [ref t 1 8 1 (pc s + 2)]. split; auto. split; [apply en_branch_name; auto|reflexivity].
    + intros (t' & rest' & ds & E & EN & ->). injection E as <- <-.
      inversion EN; subst; try discriminate;
        (match goal with X : op_of mn Relative _ |- _ => rename X into OR end);
        (match goal with X : num _ _ _ _ _ _ |- _ => rename X into NU | X : not_num _ _ _ _ _ |- _ => rename X into NU end);
        apply code_op_iff in OR; unfold code_op in OR;
        rewrite H in OR; injection OR as <-; change mos6502_p with mos_p.
      * unfold num in NU. rewrite NU. unfold bind, lift. rewrite pack_bb by auto.
        replace ((-128 <=? v) && (v <? 128)) with true by lia. reflexivity.
      * unfold not_num in NU. rewrite NU. unfold bind, lift. rewrite pack_bb by auto. reflexivity.
Qed.

(** The whole 6502: what is accepted, and the exact effect. *)
Theorem mos_encoding : forall e s words t0 ops fuel l s', opcode_stmt (mos6502 e) s words t0 ops ->
  exec (mos6502 e) fuel [Stmt KInstruction words l] s = (s', Ok tt) <->
  exists o b ds, written ops o /\ encodes s (upper t0) o b ds /\ emitted (referring s ds) b s'.
Proof.
  intros e s words t0 ops fuel l s' OS. rewrite (exec_opcode _ _ _ _ _ _ _ OS).
  change (op_key (mos6502 e) t0) with (upper t0). set (mn := upper t0).
  pose proof (mos_lookup e mn) as LK. destruct (tables_disjoint mn) as [D1 D2].
  destruct (dget str_eqb mos6502_modes mn) as [kw|] eqn:E1.
  - destruct (D1 kw eq_refl) as [N2 N3].
    rewrite (fun_result _ _ _ _ _ _ LK). rewrite (manage_mode_eq kw t0 ops s (kwargs_known _ _ E1)). split.
    + intros (b & B & EM). destruct (classify ops) as [o|] eqn:CL.
      2:{ cbn in B. discriminate. }
      assert (F : framed o = true).
      { apply classify_written in CL as W. destruct W; try reflexivity; [discriminate CL|].
        exfalso. revert CL. clear. intros CL. unfold classify in CL.
        destruct rest as [|x [|y [|z [|]]]]; repeat match type of CL with
          | (if ?c then _ else _) = _ => destruct c; try discriminate end; discriminate. }
      destruct (except_key_error (mode_case kw o) s) as [s1 r] eqn:R. cbn [fst snd] in *. subst r.
      apply (proj1 (eke_ok _ _ _ _ _)) in R. apply (mode_result s mn kw o s1 b E1 F) in R. destruct R as (ds & EN & ->).
      exists o, b, ds. split; [apply classify_written; exact CL|]. auto.
    + intros (o & b & ds & W & EN & EM).
      assert (F : framed o = true).
      { destruct EN; try reflexivity.
        - exfalso. apply code_op_iff in H. unfold code_op in H. congruence.
        - destruct o; try discriminate; reflexivity.
        - destruct o; try discriminate; reflexivity.
        - destruct o; try discriminate; reflexivity.
        - exfalso. apply code_op_iff in H. unfold code_op in H. congruence.
        - exfalso. apply code_op_iff in H. unfold code_op in H. congruence. }
      rewrite (written_classify _ _ W F).
      assert (R : mode_case kw o s = (referring s ds, Ok (Some b))) by (apply (mode_result s mn kw); eauto).
      apply (proj2 (eke_ok _ _ _ _ _)) in R. rewrite R. exists b. auto.
  - assert (NF : forall o b ds, encodes s mn o b ds ->
        o = NoOperand \/ exists t, o = Target t).
    { intros o b ds EN.
      assert (X : forall m op, op_of mn m op -> m = Implied \/ m = Relative).
      { intros m op H. apply code_op_iff in H. unfold code_op in H. rewrite E1 in H. destruct m; auto; discriminate. }
      destruct EN; eauto; exfalso;
        match goal with H : op_of mn ?m ?op, A : addressed ?o = _ |- _ =>
          apply X in H; destruct o; cbn [addressed] in A; try discriminate; injection A as <- <- <-; destruct H; discriminate
        | H : op_of mn ?m ?op |- _ => apply X in H; destruct H; discriminate end. }
    destruct (dget str_eqb mos6502_branches mn) as [code|] eqn:E2.
    + rewrite (fun_result _ _ _ _ _ _ LK). split.
      * intros (b & B & EM). destruct (manage_branching code (t0 :: ops) s) as [s1 r] eqn:R. cbn [fst snd] in *. subst r.
        apply (branch_result s mn) in R; auto. destruct R as (t & rest & ds & -> & EN & ->).
        exists (Target t), b, ds. split; [constructor|auto].
      * intros (o & b & ds & W & EN & EM). destruct (NF _ _ _ EN) as [->|[t ->]].
        -- inversion EN; subst; try discriminate. apply code_op_iff in H. unfold code_op in H. rewrite (D2 _ eq_refl) in H. discriminate.
        -- inversion W; subst. exists b.
           assert (R : manage_branching code (t0 :: t :: rest) s = (referring s ds, Ok (Some b))).
           { apply (branch_result s mn); eauto 7. }
           rewrite R. auto.
    + destruct (dget str_eqb mos6502_static mn) as [k|] eqn:E3; cbn [option_map] in LK.
      * rewrite (static_result _ _ _ _ _ _ _ LK). split.
        -- intros [-> EM]. exists NoOperand, [k], []. split; [constructor|]. split; [|exact EM].
           constructor. apply code_op_iff. exact E3.
        -- intros (o & b & ds & W & EN & EM). destruct (NF _ _ _ EN) as [->|[t ->]].
           ++ inversion W; subst. inversion EN; subst; try discriminate. apply code_op_iff in H. unfold code_op in H.
              rewrite E3 in H. injection H as <-. auto.
           ++ exfalso. inversion EN; subst; try discriminate;
                match goal with H : op_of _ _ _ |- _ => apply code_op_iff in H; unfold code_op in H; congruence end.
      * rewrite (unknown_result _ _ _ _ _ LK). split; [tauto|]. intros (o & b & ds & W & EN & EM).
        destruct (NF _ _ _ EN) as [->|[t ->]]; inversion EN; subst; try discriminate;
          match goal with H : op_of _ _ _ |- _ => apply code_op_iff in H; unfold code_op in H; congruence end.
Qed.
