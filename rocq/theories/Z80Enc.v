(** The Z80 model encodes the instructions of its manual. *)
From Coq Require Import Lia.
From Verif Require Import Py PyFacts Utils Tokenizer State Assembler Instr Z80.
From Verif Require Import SpecUtils SpecSubst SpecExec SpecCpu SpecByte SpecZ80 UtilsFacts CpuFacts MosFacts WordFacts LrFacts LrEnc.
From Verif Require Import SpecZ80 Z80Facts.
Local Open Scope Z_scope.

(** ** The operand *)

Definition zfield (h : zhook) : field := match h with Znn => SpecByte.Word | Zn => Byte | Ze => Disp | Zd => Index | Zindex => Index end.
Definition zdrop (h : zhook) (t : str) : nat := match h with Zindex => drop_of t | _ => 0%nat end.

Lemma build_result : forall h base t s s1 b, 0 <= pc s -> (h = Zindex -> idx t = true) ->
  z80_build h base t s = (s1, Ok b) <-> exists ds, stored z_p s (zlen base) (zfield h) (skipn (zdrop h t) t) b ds /\ s1 = referring s ds.
Proof.
  intros h base t s s1 b P I. change z_p with z80_p. pose proof (zlen_nonneg base) as LB. set (off := zlen base) in *.
  assert (SG : forall x, (let! v := parse_integer_or_label z80_p (LabelData x 1 8 0 off 1 None None None) true in
      lift (pack_8s [Some v])) s = (s1, Ok b) <-> exists ds, stored z80_p s off Index x b ds /\ s1 = referring s ds).
  { intros x. unfold bind. rewrite poil_eq. cbn [ld_label ld_bits_size ld_relative orb negb Z.eqb].
    destruct (parse_integer z80_p (labels s) x 8 true) as [[v|]|e] eqn:E.
    + unfold lift. pose proof (num_range _ _ _ _ _ _ E ltac:(lia)) as R. change (2 ^ 8) with 256 in R. change (2 ^ (8 - 1)) with 128 in R.
      rewrite neg_pack by lia. split.
      * intros X. injection X as <- <-. exists []. split; [apply st_index; exact E|reflexivity].
      * intros (ds & S & ->). inversion S; subst; unfold num, not_num in *; [|congruence].
        replace v0 with v by congruence. reflexivity.
    + unfold lift. rewrite neg_pack by lia. split.
      * intros X. injection X as <- <-. eexists. split; [apply st_index_name; exact E|reflexivity].
      * intros (ds & S & ->). inversion S; subst; unfold num, not_num in *; [congruence|]. reflexivity.
    + split; [discriminate|]. intros (ds & S & ->). inversion S; subst; unfold num, not_num in *; congruence. }
  destruct h; cbn [z80_build zfield zdrop skipn]; fold off.
  - unfold bind. rewrite poil_eq. cbn [ld_label ld_bits_size ld_relative orb negb Z.eqb].
    destruct (parse_integer z80_p (labels s) t 16 false) as [[v|]|e] eqn:E.
    + unfold lift. pose proof (unum_range _ _ _ _ _ E ltac:(lia)) as R. change (2 ^ 16) with 65536 in R.
      rewrite pack_word by exact R. split.
      * intros X. injection X as <- <-. exists []. split; [apply st_word; exact E|reflexivity].
      * intros (ds & S & ->). inversion S; subst; unfold num, not_num in *; [|congruence].
        replace v0 with v by congruence. reflexivity.
    + unfold lift. rewrite pack_word by lia. split.
      * intros X. injection X as <- <-. eexists. split; [apply st_word_name; exact E|reflexivity].
      * intros (ds & S & ->). inversion S; subst; unfold num, not_num in *; [congruence|]. reflexivity.
    + split; [discriminate|]. intros (ds & S & ->). inversion S; subst; unfold num, not_num in *; congruence.
  - unfold bind. rewrite poil_eq. cbn [ld_label ld_bits_size ld_relative orb negb Z.eqb].
    destruct (parse_integer z80_p (labels s) t 8 false) as [[v|]|e] eqn:E.
    + unfold lift. pose proof (unum_range _ _ _ _ _ E ltac:(lia)) as R. change (2 ^ 8) with 256 in R.
      rewrite pack_byte1 by exact R. split.
      * intros X. injection X as <- <-. exists []. split; [apply st_byte; exact E|reflexivity].
      * intros (ds & S & ->). inversion S; subst; unfold num, not_num in *; [|congruence].
        replace v0 with v by congruence. reflexivity.
    + unfold lift. rewrite pack_byte1 by lia. split.
      * intros X. injection X as <- <-. eexists. split; [apply st_byte_name; exact E|reflexivity].
      * intros (ds & S & ->). inversion S; subst; unfold num, not_num in *; [congruence|]. reflexivity.
    + split; [discriminate|]. intros (ds & S & ->). inversion S; subst; unfold num, not_num in *; congruence.
  - unfold bind, get. rewrite poil_eq. cbn [ld_label ld_bits_size ld_relative orb].
    replace (pc s + off + 1 =? 0) with false by lia. cbn [negb].
    destruct (parse_integer z80_p (labels s) t 8 true) as [[v|]|e] eqn:E.
    + unfold lift. pose proof (num_range _ _ _ _ _ _ E ltac:(lia)) as R. change (2 ^ 8) with 256 in R. change (2 ^ (8 - 1)) with 128 in R.
      rewrite neg_pack by lia. split.
      * intros X. injection X as <- <-. exists []. split; [apply st_disp; exact E|reflexivity].
      * intros (ds & S & ->). inversion S; subst; unfold num, not_num in *; [|congruence].
        replace v0 with v by congruence. reflexivity.
    + unfold lift. rewrite neg_pack by lia. split.
      * intros X. injection X as <- <-. eexists. split; [apply st_disp_name; exact E|reflexivity].
      * intros (ds & S & ->). inversion S; subst; unfold num, not_num in *; [congruence|]. reflexivity.
    + split; [discriminate|]. intros (ds & S & ->). inversion S; subst; unfold num, not_num in *; congruence.
  - apply SG.
  - specialize (I eq_refl). apply idx_iff in I. destruct I as (r & x & I & X). 
    assert (L : length r = 2%nat) by (destruct I as [<-|[<-|[]]]; reflexivity).
    apply idx_x_iff in X as Y; [|exact L]. destruct Y as [_ Y]. rewrite <- Y. clear Y.
    inversion X as [? ? ? U V|? ? ? U V]; subst; destruct r as [|r1 [|r2 [|r3 r]]]; try discriminate; apply third in U; destruct U as [C LT];
      [apply upper_plus in C|apply upper_minus in C]; rewrite (nth_error_nth' t " "%char LT), C; cbn [Ascii.eqb Bool.eqb]; apply SG.
Qed.

(** ** The table *)

Definition row : Type := list Z * list str.
Definition amatch (a t : str) : bool := match1 (fst (z80_arg a)) t.
Definition rows_in (l : list (list Z * str * list str)) (m : str) : list row :=
  flat_map (fun '(code, name, args) => if str_eqb (upper name) m then [(code, args)] else []) l.
Definition rows_of (m : str) : list row := rows_in z80_table m.
Definition code_bytes (c : Z) : bytes := if c <=? 0xFF then [c] else [c / 256; c mod 256].
Fixpoint rsel (rows : list row) (ops : list str) : option want :=
  match rows with
  | [] => None
  | (code, args) :: rest =>
      if match_ ops (map (fun a => fst (z80_arg a)) args) then
        Some (code_bytes (hd 0 code), tl code,
              match z80_hook args 0 None with Some (h, i) => [(zfield h, i, zdrop h (nth i ops []))] | None => [] end)
      else rsel rest ops
  end.
(** What the model relies on in a row. *)
Definition byte_b (b : Z) : bool := (0 <=? b) && (b <? 256).
Definition arg_ok (a : str) : bool := str_in a [#"nn"; #"n"; #"e"; #"d"; #"IX+d"; #"IY+d"] || str_in (upper a) known.
Definition row_ok (r : row) : bool :=
  let '(code, args) := r in
  match code with c :: suf => (0 <=? c) && (c <? 65536) && forallb byte_b suf | [] => false end &&
  forallb arg_ok args &&
  match z80_hook args 0 None with
  | None => true
  | Some (h, i) =>
      Nat.ltb i (length args) &&
      match h with Zindex => str_in (nth i args []) [#"IX+d"; #"IY+d"] | _ => true end
  end.
Lemma rows_checked : forallb (fun '(code, name, args) => row_ok (code, args)) z80_table = true.
Proof. vm_compute. reflexivity. Qed.
Lemma rows_fine : forall m, Forall (fun r => row_ok r = true) (rows_of m).
Proof.
  intros m. apply Forall_forall. intros r I. unfold rows_of, rows_in in I. apply in_flat_map in I. destruct I as (((code & name) & args) & I & J).
  pose proof rows_checked as R. rewrite forallb_forall in R. apply R in I. cbv beta iota in I, J. destruct (str_eqb (upper name) m); [|destruct J].
  destruct J as [<-|[]]. exact I.
Qed.

Lemma dget_add : forall n v (t : list (str * list zvariant)) m, dget str_eqb (z80_add n v t) m =
  if str_eqb m n then Some (match dget str_eqb t m with Some vs => vs ++ [v] | None => [v] end) else dget str_eqb t m.
Proof.
  intros n v t m. induction t as [|[k vs] t IH]; cbn [z80_add dget].
  - destruct (str_eqb m n); reflexivity.
  - destruct (str_eqb k n) eqn:E.
    + apply str_eqb_eq in E. subst k. cbn [dget]. destruct (str_eqb m n); reflexivity.
    + cbn [dget]. rewrite IH. destruct (str_eqb m k) eqn:E2; [|reflexivity]. apply str_eqb_eq in E2. subst k. rewrite E. reflexivity.
Qed.
Definition variants (rows : list row) : list zvariant := map (fun '(code, args) => z80_variant code args) rows.
Lemma str_eqb_sym : forall a b : str, str_eqb a b = str_eqb b a.
Proof.
  intros a b. destruct (str_eqb a b) eqn:E.
  - apply str_eqb_eq in E. subst. symmetry. apply str_eqb_eq. reflexivity.
  - destruct (str_eqb b a) eqn:E2; [|reflexivity]. apply str_eqb_eq in E2. subst. rewrite (proj2 (str_eqb_eq a a) eq_refl) in E. discriminate.
Qed.
Lemma dget_fold : forall l t m,
  dget str_eqb (fold_left (fun t '(code, name, args) => z80_add (upper name) (z80_variant code args) t) l t) m =
  match rows_in l m with [] => dget str_eqb t m | rs => Some (match dget str_eqb t m with Some vs => vs | None => [] end ++ variants rs) end.
Proof.
  induction l as [|[[code name] args] l IH]; intros t m; [reflexivity|]. cbn [fold_left rows_in flat_map].
  rewrite IH. fold (rows_in l m). rewrite dget_add, (str_eqb_sym m (upper name)). destruct (str_eqb (upper name) m); cbn [app]; [|reflexivity].
  destruct (rows_in l m) as [|r rs]; cbn [variants map].
  - destruct (dget str_eqb t m); reflexivity.
  - destruct (dget str_eqb t m) as [vs|]; cbn [app]; [rewrite <- app_assoc|]; reflexivity.
Qed.
Lemma opcodes_get : forall m, dget str_eqb z80_ops m = match rows_of m with [] => None | rs => Some (OFun (z80_call (variants rs))) end.
Proof.
  intros m. assert (G : forall t : list (str * list zvariant), dget str_eqb (map (fun '(n, vs) => (n, OFun (z80_call vs))) t) m =
    option_map (fun vs => OFun (z80_call vs)) (dget str_eqb t m)).
  { induction t as [|[n vs] t IH]; [reflexivity|]. cbn [map dget]. destruct (str_eqb m n); [reflexivity|exact IH]. }
  unfold z80_ops. rewrite G. unfold z80_opcodes. rewrite dget_fold. fold (rows_of m). destruct (rows_of m); reflexivity.
Qed.

(** ** One instruction *)

Lemma base_bytes : forall c, 0 <= c < 65536 -> z80_base c = Ok (code_bytes c).
Proof.
  intros c R. unfold z80_base, code_bytes. destruct (c <=? 255) eqn:E; [rewrite pack_byte1 by lia; reflexivity|].
  rewrite Z.shiftr_div_pow2 by lia. change (2 ^ 8) with 256. change 255 with (Z.ones 8). rewrite Z.land_ones by lia. change (2 ^ 8) with 256.
  rewrite pack_byte1 by (split; [apply Z.div_pos; lia|apply Z.div_lt_upper_bound; lia]). cbn [rbind].
  rewrite pack_byte1 by (apply Z.mod_pos_bound; lia). reflexivity.
Qed.
Lemma suffix_bytes : forall suf base, forallb byte_b suf = true -> z80_suffix base suf = Ok (base ++ suf).
Proof.
  induction suf as [|c suf IH]; intros base H; cbn [z80_suffix]; [rewrite app_nil_r; reflexivity|].
  cbn [forallb] in H. apply andb_prop in H. destruct H as [H1 H2]. unfold byte_b in H1. rewrite pack_byte1 by lia. cbn [rbind].
  rewrite IH by exact H2. rewrite <- app_assoc. reflexivity.
Qed.
Lemma match_cover : forall args ops, match_ ops (map (fun a => fst (z80_arg a)) args) = true <-> Forall2 (fun a t => amatch a t = true) args ops.
Proof.
  unfold match_. induction args as [|a args IH]; intros [|t ops]; cbn [map length match_all Nat.eqb andb].
  - split; [constructor|reflexivity].
  - split; [discriminate|]. intros H; inversion H.
  - split; [discriminate|]. intros H; inversion H.
  - specialize (IH ops). rewrite andb_true_iff in IH |- *. rewrite andb_true_iff. unfold amatch in *. split.
    + intros (L & M & R). constructor; [exact M|]. apply IH. auto.
    + intros H. inversion H; subst. split; [apply IH; assumption|]. split; [assumption|apply IH; assumption].
Qed.

Lemma call_result : forall rows t0 ops s s1 b, 0 <= pc s -> Forall (fun r => row_ok r = true) rows ->
  z80_call (variants rows) (t0 :: ops) s = (s1, Ok (Some b)) <->
  exists pre suf l ds, rsel rows ops = Some (pre, suf, l) /\ laid_out z_p s pre suf (picked ops l) b ds /\ s1 = referring s ds.
Proof.
  intros rows t0 ops s s1 b P F. induction F as [|[code args] rows RO F IH]; cbn [variants map z80_call rsel].
  { split; [discriminate|]. intros (pre & suf & l & ds & E & _). discriminate. }
  unfold z80_variant at 1. cbn [tl]. destruct (match_ ops (map (fun a => fst (z80_arg a)) args)) eqn:M; [|exact IH]. clear IH.
  cbn [row_ok] in RO. apply andb_prop in RO. destruct RO as [RO HK]. apply andb_prop in RO. destruct RO as [CO _].
  destruct code as [|c suf]; [discriminate|]. apply andb_prop in CO. destruct CO as [CO SF]. cbn [hd tl].
  unfold bind at 1. unfold lift at 1. rewrite base_bytes by lia.
  destruct (z80_hook args 0 None) as [[h i]|].
  - apply andb_prop in HK. destruct HK as [LT HI]. apply Nat.ltb_lt in LT.
    apply match_cover in M. assert (LL : length args = length ops) by (clear -M; induction M; cbn; auto).
    assert (N : nth_error ops i = Some (nth i ops [])) by (apply nth_error_nth'; lia).
    cbn [nth_error]. rewrite N. set (t := nth i ops []) in *.
    assert (IX : h = Zindex -> idx t = true).
    { intros ->. apply str_in_In in HI.
      assert (A : amatch (nth i args []) t = true).
      { clear -M LT. subst t. revert i LT. induction M as [|a x args ops A M IH]; intros i LT; [cbn in LT; lia|].
        destruct i; [exact A|]. cbn [nth]. apply IH. cbn in LT. lia. }
      rewrite idx_four. destruct HI as [HI|[HI|[]]]; rewrite <- HI in A;
        [change (z80_is_index_x t = true) in A; unfold z80_is_index_x in A|change (z80_is_index_y t = true) in A; unfold z80_is_index_y in A]; rewrite A;
        [reflexivity|apply orb_true_r]. }
    unfold bind at 1. unfold bind at 1.
    pose proof (build_result h (code_bytes c) t s) as BR.
    destruct (z80_build h (code_bytes c) t s) as [s2 [bo|e]].
    + unfold ret at 1. unfold bind, lift. rewrite suffix_bytes by exact SF. unfold ret. split.
      * intros E. injection E as <- <-. destruct (proj1 (BR s2 bo P IX) eq_refl) as (ds & S & ->).
        exists (code_bytes c), suf, [(zfield h, i, zdrop h t)], ds. split; [reflexivity|]. split; [|reflexivity].
        unfold picked. cbn [map]. fold t. rewrite <- app_assoc. apply lo_one. exact S.
      * intros (pre & suf' & l & ds & E & LO & ->). injection E as <- <- <-. unfold picked in LO. cbn [map] in LO. fold t in LO.
        inversion LO as [|f0 t1 b0 ds0 S]; subst. 
        pose proof (proj2 (BR (referring s ds) b0 P IX) (ex_intro _ ds (conj S eq_refl))) as R. injection R as <- <-.
        rewrite <- app_assoc. reflexivity.
    + split; [discriminate|]. intros (pre & suf' & l & ds & E & LO & ->). injection E as <- <- <-. unfold picked in LO. cbn [map] in LO. fold t in LO.
      inversion LO as [|f0 t1 b0 ds0 S]; subst. 
      pose proof (proj2 (BR (referring s ds) b0 P IX) (ex_intro _ ds (conj S eq_refl))) as R. discriminate.
  - unfold bind at 1. unfold ret at 1. unfold bind, lift. rewrite suffix_bytes by exact SF. unfold ret. split.
    + intros E. injection E as <- <-. exists (code_bytes c), suf, [], []. split; [reflexivity|]. split; [apply lo_none|reflexivity].
    + intros (pre & suf' & l & ds & E & LO & ->). injection E as <- <- <-. inversion LO; subst. reflexivity.
Qed.

(** ** The comparison *)

Lemma amatch_nf : forall a t, arg_ok a = true -> amatch a (nf t) = amatch a t.
Proof.
  intros a t H. unfold amatch, z80_arg.
  assert (VAL : z80_is_value (nf t) = z80_is_value t) by (unfold z80_is_value; rewrite nf_list by reflexivity; reflexivity).
  assert (IXX : z80_is_index_x (nf t) = z80_is_index_x t) by (unfold z80_is_index_x; rewrite !nf_prefix by (cbn; auto); reflexivity).
  assert (IYY : z80_is_index_y (nf t) = z80_is_index_y t) by (unfold z80_is_index_y; rewrite !nf_prefix by (cbn; auto); reflexivity).
  destruct (str_eqb a #"nn") eqn:E1; [exact VAL|]. destruct (str_eqb a #"n") eqn:E2; [exact VAL|].
  destruct (str_eqb a #"e") eqn:E3; [exact VAL|]. destruct (str_eqb a #"d") eqn:E4; [exact VAL|].
  destruct (str_eqb a #"IX+d") eqn:E5; [exact IXX|]. destruct (str_eqb a #"IY+d") eqn:E6; [exact IYY|].
  cbn [fst match1]. apply nf_word. unfold arg_ok in H. apply orb_prop in H. destruct H as [H|H]; [|exact H].
  exfalso. apply str_in_In in H. destruct H as [H|[H|[H|[H|[H|[H|[]]]]]]]; subst a; discriminate.
Qed.
Lemma matches_nf : forall args ops, forallb arg_ok args = true ->
  match_ (map nf ops) (map (fun a => fst (z80_arg a)) args) = match_ ops (map (fun a => fst (z80_arg a)) args).
Proof.
  unfold match_. intros args ops H. rewrite map_length. f_equal. revert ops.
  induction args as [|a args IH]; intros [|t ops]; try reflexivity. cbn [map match_all]. cbn [forallb] in H. apply andb_prop in H. destruct H as [H1 H2].
  rewrite IH by exact H2. f_equal. apply (amatch_nf a t H1).
Qed.
Lemma rsel_nf : forall rows ops, Forall (fun r => row_ok r = true) rows -> rsel rows (map nf ops) = rsel rows ops.
Proof.
  intros rows ops F. induction F as [|[code args] rows RO F IH]; [reflexivity|]. cbn [rsel].
  cbn [row_ok] in RO. apply andb_prop in RO. destruct RO as [RO HK]. apply andb_prop in RO. destruct RO as [_ AO].
  rewrite matches_nf, IH by exact AO. destruct (match_ ops (map (fun a => fst (z80_arg a)) args)) eqn:M; [|reflexivity].
  f_equal. f_equal. destruct (z80_hook args 0 None) as [[h i]|]; [|reflexivity].
  apply andb_prop in HK. destruct HK as [LT HI]. apply Nat.ltb_lt in LT. apply match_cover in M.
  assert (LL : length args = length ops) by (clear -M; induction M; cbn; auto).
  assert (NN : nth i (map nf ops) [] = nf (nth i ops [])).
  { rewrite (nth_indep _ [] (nf [])) by (rewrite map_length; lia). apply map_nth. }
  rewrite NN. destruct h; try reflexivity. cbn [zdrop]. rewrite nf_drop; [reflexivity|].
  apply str_in_In in HI.
  assert (A : amatch (nth i args []) (nth i ops []) = true).
  { clear -M LT. revert i LT. induction M as [|a x args ops A M IH]; intros i LT; [cbn in LT; lia|].
    destruct i; [exact A|]. cbn [nth]. apply IH. cbn in LT. lia. }
  set (t := nth i ops []) in *.
  rewrite idx_four. destruct HI as [HI|[HI|[]]]; rewrite <- HI in A;
    [change (z80_is_index_x t = true) in A; unfold z80_is_index_x in A|change (z80_is_index_y t = true) in A; unfold z80_is_index_y in A]; rewrite A;
    [reflexivity|apply orb_true_r].
Qed.
Lemma rsel_cover : forall rows ops w, rsel rows ops = Some w -> exists r, In r rows /\ Forall2 (fun a t => amatch a t = true) (snd r) ops.
Proof.
  induction rows as [|[code args] rows IH]; intros ops w H; [discriminate|]. cbn [rsel] in H.
  destruct (match_ ops (map (fun a => fst (z80_arg a)) args)) eqn:M.
  - exists (code, args). split; [left; reflexivity|]. apply match_cover. exact M.
  - apply IH in H. destruct H as (r & I & F). exists r. split; [right; exact I|exact F].
Qed.

Definition odd_regs : list str := [#"A"; #"HL"; #"BC"; #"DE"; #"SP"; #"IX"; #"IY"].
Definition odd_b (m : str) (ops : list str) : bool :=
  existsb (existsb (Ascii.eqb " ")) ops ||
  match ops with
  | [a; b; c; d] =>
      str_eqb m #"LD" && (str_in (upper a) odd_regs && idx c || (str_in (upper d) odd_regs || negb (str_in (upper d) registers)) && idx b) ||
      str_eqb m #"BIT" && idx c
  | _ => false
  end.
Lemma odd_sound : forall m ops, odd_b m (map nf ops) = true -> odd m ops.
Proof.
  intros m ops H. unfold odd_b in H. apply orb_prop in H. destruct H as [H|H].
  { apply existsb_exists in H. destruct H as (x & I & E). apply in_map_iff in I. destruct I as (t & <- & I).
    apply existsb_exists in E. destruct E as (c & J & E). apply Ascii.eqb_eq in E. subst c. eapply odd_blank; [exact I|]. apply nf_blank. exact J. }
  destruct ops as [|a [|b [|c [|d [|x ops]]]]]; try discriminate. cbn [map] in H.
  rewrite !nf_list, !nf_idx in H by reflexivity. apply orb_prop in H. destruct H as [H|H]; apply andb_prop in H; destruct H as [H1 H2]; apply str_eqb_eq in H1; subst m.
  - apply orb_prop in H2. destruct H2 as [H|H]; apply andb_prop in H; destruct H as [H1 H2]; apply idx_iff in H2.
    + apply odd_load; [apply str_in_In; exact H1|exact H2].
    + apply odd_store; [|exact H2]. apply orb_prop in H1. destruct H1 as [H1|H1]; [left; apply str_in_In; exact H1|right; apply not_register; exact H1].
  - apply odd_bit. apply idx_iff. exact H2.
Qed.

Definition want_eqb (a b : want) : bool :=
  list_eqb Z.eqb (fst (fst a)) (fst (fst b)) && list_eqb Z.eqb (snd (fst a)) (snd (fst b)) && list_eqb op_eqb (snd a) (snd b).
Lemma want_eqb_eq : forall a b, want_eqb a b = true -> a = b.
Proof.
  intros [[a1 a2] a3] [[b1 b2] b3] H. unfold want_eqb in H. cbn [fst snd] in H. apply andb_prop in H. destruct H as [H H3].
  apply andb_prop in H. destruct H as [H1 H2].
  apply list_eqb_eq in H1; [|intros x y X; apply Z.eqb_eq; exact X].
  apply list_eqb_eq in H2; [|intros x y X; apply Z.eqb_eq; exact X]. apply list_eqb_eq in H3; [congruence|].
  intros [[f i] d] [[g j] e] X. cbn [op_eqb] in X. apply andb_prop in X. destruct X as [X X3]. apply andb_prop in X. destruct X as [X1 X2].
  apply Nat.eqb_eq in X2, X3. subst. destruct f, g; try discriminate; reflexivity.
Qed.
Definition agree (m : str) (fs : list (bytes * bytes * list kind)) (rs : list row) (ops : list str) : bool :=
  odd_b m ops ||
  match rsel rs ops with
  | None => match spec_sel fs ops with [] => true | _ => false end
  | Some w => match spec_sel fs ops with [] => false | l => forallb (want_eqb w) l end
  end.
Fixpoint product (ps : list (str -> bool)) : list (list str) :=
  match ps with
  | [] => [[]]
  | p :: ps' => let rest := product ps' in flat_map (fun t => map (cons t) rest) (filter p reps)
  end.
Lemma product_all : forall ps ops, Forall2 (fun (p : str -> bool) t => p t = true) ps ops -> Forall (fun t => In t reps) ops ->
  In ops (product ps).
Proof.
  intros ps ops F. induction F as [|p t ps ops H F IH]; intros R; [left; reflexivity|]. inversion R; subst.
  cbn [product]. apply in_flat_map. exists t. split; [apply filter_In; auto|]. apply in_map. apply IH. assumption.
Qed.
Definition names_used : list str := nodup (list_eq_dec ascii_dec) (map (fun '(_, name, _) => upper name) z80_table ++ map fst manual).
Definition compared (m : str) : bool :=
  let fs := forms_of m in let rs := rows_of m in
  forallb (fun '(_, args) => forallb (agree m fs rs) (product (map amatch args))) rs &&
  forallb (fun '(_, _, ks) => forallb (agree m fs rs) (product (map kmatch ks))) fs.
Lemma all_compared : forallb compared names_used = true.
Proof. vm_cast_no_check (eq_refl true). Qed.

Lemma used_row : forall m r, In r (rows_of m) -> In m names_used.
Proof.
  intros m r I. unfold rows_of, rows_in in I. apply in_flat_map in I. destruct I as (((code & name) & args) & I & J).
  cbv beta iota in J. destruct (str_eqb (upper name) m) eqn:E; [|destruct J]. apply str_eqb_eq in E. subst m.
  unfold names_used. rewrite nodup_In, in_app_iff. left. rewrite in_map_iff. exists (code, name, args). auto.
Qed.
Lemma used_form : forall m f, In f (forms_of m) -> In m names_used.
Proof.
  intros m [[pre suf] ks] I. apply forms_in in I. unfold names_used. rewrite nodup_In, in_app_iff. right. rewrite in_map_iff. exists (m, (pre, suf, ks)). auto.
Qed.

Lemma compare : forall m ops, ~ odd m ops -> forall w, rsel (rows_of m) ops = Some w <-> In w (spec_sel (forms_of m) ops).
Proof.
  intros m ops O w. rewrite <- spec_sel_nf, <- (rsel_nf _ _ (rows_fine m)).
  assert (R : Forall (fun t => In t reps) (map nf ops)) by (apply Forall_forall; intros t I; apply in_map_iff in I; destruct I as (x & <- & _); apply nf_reps).
  assert (AG : (exists w, rsel (rows_of m) (map nf ops) = Some w) \/ (exists w, In w (spec_sel (forms_of m) (map nf ops))) ->
               agree m (forms_of m) (rows_of m) (map nf ops) = true).
  { pose proof all_compared as A. rewrite forallb_forall in A. intros [[x X]|[x X]].
    - apply rsel_cover in X. destruct X as ([code args] & I & F). pose proof (A _ (used_row _ _ I)) as C. unfold compared in C. cbv zeta in C.
      apply andb_prop in C. destruct C as [C _]. rewrite forallb_forall in C. apply C in I. cbv beta iota in I. rewrite forallb_forall in I.
      apply I. apply product_all; [|exact R]. cbn [snd] in F. clear -F. induction F; constructor; auto.
    - unfold spec_sel in X. apply in_flat_map in X. destruct X as (((pre & suf) & ks) & I & X).
      destruct (kwants ks (map nf ops) 0) as [l|] eqn:K; [|destruct X]. apply kwants_cover in K.
      pose proof (A _ (used_form _ _ I)) as C. unfold compared in C. cbv zeta in C.
      apply andb_prop in C. destruct C as [_ C]. rewrite forallb_forall in C. apply C in I. cbv beta iota in I. rewrite forallb_forall in I.
      apply I. apply product_all; [|exact R]. clear -K. induction K; constructor; auto. }
  assert (OB : odd_b m (map nf ops) = false).
  { destruct (odd_b m (map nf ops)) eqn:E; [|reflexivity]. apply odd_sound in E. tauto. }
  unfold agree in AG. rewrite OB in AG. cbn [orb] in AG. split.
  - intros E. rewrite E in AG. specialize (AG (or_introl (ex_intro _ w eq_refl))).
    destruct (spec_sel (forms_of m) (map nf ops)) as [|x l]; [discriminate|].
    cbn [forallb] in AG. apply andb_prop in AG. destruct AG as [AG _]. apply want_eqb_eq in AG. left. auto.
  - intros I. specialize (AG (or_intror (ex_intro _ w I))). destruct (rsel (rows_of m) (map nf ops)) as [x|].
    + destruct (spec_sel (forms_of m) (map nf ops)) as [|y l]; [destruct I|]. rewrite forallb_forall in AG.
      apply AG in I. apply want_eqb_eq in I. congruence.
    + destruct (spec_sel (forms_of m) (map nf ops)) as [|y l]; [destruct I|discriminate].
Qed.

Lemma z80_instructions : forall e, c_instructions (z80 e) = z80_ops.
Proof. intros e. unfold z80, mk_cfg. cbn [c_instructions]. apply register_all_id; vm_compute; reflexivity. Qed.

(** The whole Z80: what is accepted, and the exact effect. *)
Theorem z80_encoding : forall e s words t0 ops fuel l s', opcode_stmt (z80 e) s words t0 ops -> 0 <= pc s -> ~ odd (upper t0) ops ->
  exec (z80 e) fuel [Stmt KInstruction words l] s = (s', Ok tt) <->
  exists b ds, encodes s (upper t0) ops b ds /\ emitted (referring s ds) b s'.
Proof.
  intros e s words t0 ops fuel l s' OS P O. rewrite (exec_opcode _ _ _ _ _ _ _ OS).
  change (op_key (z80 e) t0) with (upper t0). set (m := upper t0) in *.
  pose proof (opcodes_get m) as D. pose proof (rows_fine m) as RF. pose proof (compare m ops O) as CMP.
  destruct (rows_of m) as [|r rs] eqn:RS.
  - rewrite unknown_result by (rewrite z80_instructions; exact D). split; [tauto|].
    intros (b & ds & EN & E). apply encodes_iff in EN. destruct EN as (pre & suf & vs & I & L).
    apply CMP in I. discriminate.
  - rewrite (run_result _ _ _ _ _ _ _ ltac:(rewrite z80_instructions; exact D)). cbn [run]. split.
    + intros (b & s1 & R & E). apply (call_result _ t0 ops s s1 b P RF) in R. destruct R as (pre & suf & vs & ds & S & L & ->).
      exists b, ds. split; [|exact E]. apply encodes_iff. exists pre, suf, vs. split; [apply CMP; exact S|exact L].
    + intros (b & ds & EN & E). apply encodes_iff in EN. destruct EN as (pre & suf & vs & I & L). exists b, (referring s ds).
      split; [|exact E]. apply (call_result _ t0 ops s _ b P RF). exists pre, suf, vs, ds. split; [apply CMP; exact I|]. split; [exact L|reflexivity].
Qed.
