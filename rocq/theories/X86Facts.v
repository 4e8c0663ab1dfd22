(** The table of the x86. *)
From Coq Require Import Lia.
From Verif Require Import Py PyFacts Utils Tokenizer State Assembler Instr X86.
From Verif Require Import CpuFacts.
From Verif Require PpcEnc.
Local Open Scope Z_scope.

Lemma add_keys : forall n v t k, In k (map fst (x86_add n v t)) -> k = n \/ In k (map fst t).
Proof.
  induction t as [|[m vs] t IH]; intros k I; cbn [x86_add] in I.
  - destruct I as [<- |[]]. left. reflexivity.
  - destruct (str_eqb m n) eqn:E; cbn [map fst In] in *; destruct I as [<- |I]; auto. destruct (IH k I); auto.
Qed.
Lemma add_nodup : forall n v t, NoDup (map fst t) -> NoDup (map fst (x86_add n v t)).
Proof.
  induction t as [|[m vs] t IH]; intros N; cbn [x86_add].
  - constructor; [intros []|constructor].
  - cbn [map fst] in N. inversion N as [|? ? N1 N2]; subst. destruct (str_eqb m n) eqn:E; cbn [map fst]; [constructor; assumption|].
    constructor; [|auto]. intros I. apply add_keys in I. destruct I as [-> |I]; [|contradiction]. rewrite str_eqb_refl in E. discriminate E.
Qed.
Lemma opcodes_keys : NoDup (map fst x86_opcodes) /\ forall k, In k (map fst x86_opcodes) -> upper k = k.
Proof.
  unfold x86_opcodes. assert (G : forall l t, NoDup (map fst t) -> (forall k, In k (map fst t) -> upper k = k) ->
    let r := fold_left (fun t '(code, name, args) => x86_add (upper name) (code, args) t) l t in
    NoDup (map fst r) /\ forall k, In k (map fst r) -> upper k = k).
  { induction l as [|[[b n] c] l IH]; intros t N U; cbn [fold_left]; [auto|]. apply IH; [apply add_nodup; exact N|].
    intros k I. apply add_keys in I. destruct I as [-> |I]; [|auto]. unfold upper. rewrite map_map. apply map_ext. intros [[] [] [] [] [] [] [] []]; reflexivity. }
  apply G; [constructor|intros k []].
Qed.
Lemma x86_get : forall e k, dget str_eqb (c_instructions (x86 e)) k =
  option_map (fun cs => OFun (x86_call cs)) (dget str_eqb x86_opcodes k).
Proof.
  intros e k. unfold x86, mk_cfg. cbn [c_instructions]. destruct opcodes_keys as [N U].
  assert (M : map fst x86_ops = map fst x86_opcodes).
  { unfold x86_ops. rewrite map_map. apply map_ext. intros [n cs]. reflexivity. }
  rewrite PpcEnc.register_keys; [|reflexivity|rewrite M; exact N|rewrite M; exact U].
  unfold x86_ops. clear. induction x86_opcodes as [|[n cs] l IH]; [reflexivity|]. cbn [map dget]. destruct (str_eqb k n); [reflexivity|exact IH].
Qed.
(** The conditions are rows of the table. *)
Lemma opcodes_rows : forall k cs code args, dget str_eqb x86_opcodes k = Some cs -> In (code, args) cs ->
  exists name, In (code, name, args) x86_table.
Proof.
  assert (A : forall n v t k cs x, In (k, cs) (x86_add n v t) -> In x cs -> x = v \/ exists cs', In (k, cs') t /\ In x cs').
  { induction t as [|[m vs] t IH]; intros k cs x I J; cbn [x86_add] in I.
    - destruct I as [E|[]]. injection E as <- <-. destruct J as [<- |[]]. left. reflexivity.
    - destruct (str_eqb m n).
      + destruct I as [E|I]; [injection E as <- <-; apply in_app_iff in J; destruct J as [J|[<- |[]]]; [right; exists vs; split; [left; reflexivity|exact J]|left; reflexivity]|].
        right. exists cs. split; [right; exact I|exact J].
      + destruct I as [E|I]; [injection E as <- <-; right; exists vs; split; [left; reflexivity|exact J]|].
        destruct (IH _ _ _ I J) as [-> |(cs' & I' & J')]; [left; reflexivity|right; exists cs'; split; [right; exact I'|exact J']]. }
  intros k cs code args D I. apply (dget_In str_eqb str_eqb_eq) in D.
  unfold x86_opcodes in D. revert D I.
  assert (G : forall l t, In (k, cs) (fold_left (fun t '(code, name, args) => x86_add (upper name) (code, args) t) l t) -> In (code, args) cs ->
    (exists cs', In (k, cs') t /\ In (code, args) cs') \/ exists name, In (code, name, args) l).
  { induction l as [|[[b n] c] l IH]; intros t D I; cbn [fold_left] in D; [left; exists cs; auto|].
    destruct (IH _ D I) as [(cs' & D' & I')|(n' & X)]; [|right; exists n'; right; exact X].
    destruct (A _ _ _ _ _ _ D' I') as [E|X]; [|left; exact X]. injection E as -> ->. right. exists n. left. reflexivity. }
  intros D I. destruct (G _ _ D I) as [(cs' & [] & _)|X]. exact X.
Qed.
