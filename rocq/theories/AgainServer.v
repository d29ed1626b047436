(** Proofs about servers that are shut down more than once. *)
From Verif Require Import Prelude Ser4 Messages Mbap Server SpecServer ServerFacts ServerLemmas.

Section Again.
Context {W : Type}.
Context (on_request : N -> W -> request -> W * expected response * list api).
Context (on_shutdown : N -> W -> W * list api).

Lemma server_again pol w es s w' os q : server_run on_request on_shutdown pol server_init w es = Ret (s, w', os) ->
  sv_shutdown s = true -> sv_queue s = TaskShutdown :: q ->
  server_step on_request on_shutdown pol s w' ERun = Ret (set_queue s q, w', []).
Proof.
  intros E D Q. destruct (run_reg_ok _ _ _ _ _ _ _ _ _ reg_ok_init E) as (_ & R). destruct (R D) as (A & B).
  cbn [server_step]. rewrite Q. destruct s as [a b c d e]. cbn in *. subst. reflexivity.
Qed.
End Again.
