(** Tools for the concrete cases beside the theorems: a statement of a program is reached,
    no text references, a link that succeeds.  They only ask for small computations, so that
    no whole state is ever printed back as a term. *)
From Verif Require Import Py Tokenizer State Assembler SpecParse SpecExec SpecPlace PropsPlace.
Local Open Scope Z_scope.

Definition stmts_of (text : str) : list stmt := match tokenize text with Ok l => l | _ => [] end.
Definition fine {A} (r : res A) : bool := match r with Ok _ => true | Err _ => false end.

Lemma fine_pair : forall A (x : A * res unit), fine (snd x) = true -> x = (fst x, Ok tt).
Proof. intros A [a [[]|e]] H; [reflexivity|discriminate H]. Qed.

Lemma reached_at : forall n c fuel text s0 s x s1 s2,
  s = fst (exec c fuel (firstn n (stmts_of text)) s0) -> s1 = fst (exec c fuel [x] s) ->
  s2 = fst (assemble c fuel text s0) ->
  nth_error (stmts_of text) n = Some x ->
  fine (tokenize text) && fine (snd (exec c fuel (firstn n (stmts_of text)) s0)) && fine (snd (exec c fuel [x] s)) &&
    fine (snd (assemble c fuel text s0)) = true ->
  passes_through c fuel text s0 s x s1 s2.
Proof.
  intros n c fuel text s0 s x s1 s2 -> -> -> N H. apply andb_prop in H. destruct H as [H H4]. apply andb_prop in H.
  destruct H as [H H3]. apply andb_prop in H. destruct H as [H1 H2].
  exists (firstn n (stmts_of text)), (skipn (S n) (stmts_of text)).
  split; [|split; [apply fine_pair, H2|split; [apply fine_pair, H3|apply fine_pair, H4]]].
  assert (E : firstn n (stmts_of text) ++ x :: skipn (S n) (stmts_of text) = stmts_of text).
  { clear - N. revert n N. induction (stmts_of text) as [|y l IH]; intros [|n] N; try discriminate N.
    - injection N as ->. reflexivity.
    - cbn [firstn skipn app]. f_equal. apply IH. exact N. }
  rewrite E. unfold stmts_of. unfold fine in H1. destruct (tokenize text); [reflexivity|discriminate H1].
Qed.

Lemma no_text_at : forall s, forallb (fun r => match ld_hook (snd r) with None => true | _ => false end) (labels_addresses s) = true ->
  no_text s.
Proof.
  intros s H. unfold no_text. apply Forall_forall. intros r I. rewrite forallb_forall in H. apply H in I.
  destruct (ld_hook (snd r)); [discriminate|reflexivity].
Qed.

Lemma linked_at : forall (x : st * res unit) b, fine (snd x) = true -> b = assembled (fst x) ->
  exists s, x = (s, Ok tt) /\ assembled s = b.
Proof. intros x b H ->. exists (fst x). split; [apply fine_pair, H|reflexivity]. Qed.

Ltac reached n := apply (reached_at n); [reflexivity|reflexivity|reflexivity|vm_compute; reflexivity|vm_compute; reflexivity].
Ltac untexted := first [apply no_text_at; vm_compute; reflexivity | apply short_of; apply no_text_at; vm_compute; reflexivity].
Ltac linked := apply linked_at; vm_compute; reflexivity.
