(** C23, C25: every way in which linking can fail; C79: what it says then. *)
From Coq Require Import Lia.
From Verif Require Import Py PyFacts Utils Tokenizer State Assembler SpecUtils SpecParse ParseFacts SpecExec
  SpecLink LinkFacts Events ExecFacts Demo PropsLink SpecStop StopFacts Report SpecReport.
Local Open Scope Z_scope.

(** Linking fails exactly when some reference stops it, with the error of the first. *)
Theorem C23_complete : forall c s e, no_passes c -> Forall ref_ok (labels_addresses s) ->
  snd (link c dummy_linker s) = Err e <-> exists a d, stopped (c_p c) s a d e.
Proof.
  intros c s e NP RO. rewrite link_eq by exact NP. unfold resolve_labels, bind, get.
  pose proof (iter_stopped (c_p c) (labels_addresses s) s e RO) as H.
  destruct (iter (fun '(address, d) => resolve_one (c_p c) dummy_linker address d) (labels_addresses s) s)
    as [s1 [[]|x]] eqn:E; cbn [snd] in *; rewrite H; clear H; unfold stopped, inside; split.
  all: intros (a & d & H); exists a, d.
  all: first [exact H | destruct H as (l1 & chs & l2 & H); exists l1, chs, l2; exact H].
Qed.

Lemma demo_refs : forall l rs, map (fun r => (ld_bits_size (snd r), ld_alignment (snd r))) (labels_addresses (demo_state l)) = rs ->
  Forall (fun r => 1 <= fst r /\ 1 <= snd r) rs ->
  forallb (fun r => match ld_bits (snd r), ld_hook (snd r) with None, None => true | _, _ => false end)
    (labels_addresses (demo_state l)) = true ->
  Forall ref_ok (labels_addresses (demo_state l)).
Proof.
  intros l rs <- F G. rewrite forallb_forall in G. rewrite Forall_map in F. rewrite Forall_forall in *.
  intros r I. specialize (F r I). specialize (G r I). cbn [fst snd] in F. unfold ref_ok.
  destruct (ld_bits (snd r)); [discriminate|]. destruct (ld_hook (snd r)); [discriminate|].
  split; [apply F|]. split; [apply F|]. split; [discriminate|auto].
Qed.

(** The second reference stops it, before the undefined name of the third. *)
Definition stop_demo : st := demo_state ["x:"; "ldi x"; "ldi x-1"; "ldi y"]%string.
Example C23_complete_example :
  no_passes demo /\ Forall ref_ok (labels_addresses stop_demo) /\ length (labels_addresses stop_demo) = 3%nat /\
  snd (link demo dummy_linker stop_demo) = Err (AExc (OnlyForwardAddressesAllowed #"x-1" (-1))).
Proof.
  split; [exact demo_no_passes|]. split; [|split; vm_compute; reflexivity].
  eapply demo_refs; [vm_compute; reflexivity| |vm_compute; reflexivity].
  repeat (constructor; [cbn [fst snd]; lia|]). constructor.
Qed.

(** A name after an operator must be defined, too, unless it is a number. *)
Theorem C25_arithmetic : forall c s a d name, no_passes c -> Forall ref_ok (labels_addresses s) ->
  In (a, d) (labels_addresses s) -> mentions (ld_label d) name ->
  parse_integer (c_p c) (labels s) name 64 false = Ok None -> dget str_eqb (labels s) name = None ->
  snd (link c dummy_linker s) <> Ok tt.
Proof.
  intros c s a d name NP RO I M P U H.
  destruct (link c dummy_linker s) as [s' r] eqn:E. cbn [snd] in H. subst r.
  apply link_iff in E; auto. destruct E as (chs & F & _).
  assert (X : exists ch, ref_changes (c_p c) (labels s) (a, d) ch).
  { clear - F I. induction F; [contradiction|]. destruct I as [->|I]; eauto. }
  destruct X as [ch C].
  assert (T : exists abs v, target (c_p c) (labels s) d abs v).
  { inversion C as [? ? v HK' V | ? ? ? ? ? HK' V]; subst; [destruct V as (abs & t & T & _)|]; eauto. }
  destruct T as (abs & v & T). inversion T as [? ? A|? ? ? A B]; subst;
    exact (mentions_fails _ _ _ _ 0 M P U _ A).
Qed.
Example C25_arithmetic_example :
  mentions #"a+<x*2" #"x" /\
  (forall lbls, parse_integer demo_p lbls #"x" 64 false = Ok None) /\
  (let s := demo_state ["a: ldi a+<x*2"]%string in
   map (fun r => ld_label (snd r)) (labels_addresses s) = [#"a+<x*2"] /\
   snd (link demo dummy_linker s) = Err (AExc (UnknownLabel #"<x"))).
Proof.
  split; [|split; [intros lbls; vm_compute; reflexivity|cbv zeta; split; vm_compute; reflexivity]].
  assert (O : forall c, In c [#"a"; #"x"; #"<x"; #"2"] -> no_ops c).
  { intros c H. repeat (destruct H as [<-|H];
      [repeat (constructor; [intros K; repeat (destruct K as [K|K]; [discriminate K|]); exact K|]); constructor|]). contradiction. }
  exists [], #"a", [], "+"%char, #"<", [("*"%char, #"2")]. split; [reflexivity|].
  split; [constructor|]. split; [intros c t E; injection E as <- _; split; discriminate|].
  split; [apply O; left; reflexivity|]. split; [discriminate|].
  split; [constructor; [split; [left; reflexivity|apply (O #"<x"); right; right; left; reflexivity]|
          constructor; [split; [right; right; left; reflexivity|apply O; right; right; right; left; reflexivity]|constructor]]|].
  split; [constructor; [left; reflexivity|constructor]|].
  split; [intros c t E; injection E as <- _; split; discriminate|].
  split; [apply O; right; left; reflexivity|discriminate].
Qed.

(** The text of a failure of link has the operand of the reference in quotes, unless
    the arithmetic in it fails or the value does not fit a bit field of the
    instruction.  Linking has no statement at hand (assembler.py:245-254): the text is
    the message alone. *)
Theorem C79_link : forall c s e, no_passes c -> Forall ref_ok (labels_addresses s) ->
  snd (link c dummy_linker s) = Err (AExc e) ->
  exists a d, In (a, d) (labels_addresses s) /\
    ((exists t t', message e = t ++ dquote :: ld_label d ++ dquote :: t') \/ e = InvalidBitRange \/
     exists start, label_relative (c_p c) (labels s) (ld_label d) start = Err (AExc e)).
Proof.
  intros c s e NP RO H. apply C23_complete in H; [|exact NP|exact RO].
  destruct H as (a & d & l1 & chs & l2 & E & _ & _ & S). exists a, d.
  split; [rewrite E; apply in_elt|].
  assert (Q : forall l (t' : str), in_quotes l ++ t' = dquote :: l ++ dquote :: t').
  { intros. unfold in_quotes. cbn [app]. rewrite <- app_assoc. reflexivity. }
  inversion S as [x F|A|x A|v x R A V|ch A N]; subst.
  - destruct F; auto; left; cbn [message].
    + exists #"unknown label ", []. rewrite <- Q, app_nil_r. reflexivity.
    + exists #"wrong alignment for label ", []. rewrite <- Q, app_nil_r. reflexivity.
    + exists (#"value " ++ str_of_int v ++ #" of label "), #" is not higher than the start location".
      rewrite <- Q, <- !(app_assoc #"value "), <- (app_assoc (str_of_int v)). reflexivity.
    + exists #"label ", (#" with value " ++ str_of_int v ++ #" is not in the " ++ str_of_int (ld_bits_size d) ++ #" bit range").
      rewrite <- Q. reflexivity.
  - left. exists #"unknown label ", []. cbn [message]. rewrite <- Q, app_nil_r. reflexivity.
  - right. right. exists 0. exact A.
  - right. right. eexists. exact V.
Qed.
Example C79_link_example :
  message (OnlyForwardAddressesAllowed #"x-1" (-1)) =
    #"value -1 of label " ++ dquote :: #"x-1" ++ dquote :: #" is not higher than the start location" /\
  message (NotInBitRange 300 8 (Some #"x")) =
    #"label " ++ dquote :: #"x" ++ dquote :: #" with value 300 is not in the 8 bit range".
Proof. split; vm_compute; reflexivity. Qed.

Print Assumptions C23_complete.
Print Assumptions C25_arithmetic.
Print Assumptions C79_link.
