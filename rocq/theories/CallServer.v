(** Proofs about what the callers of the API do themselves: server channels. *)
From Verif Require Import Prelude Ser4 Messages Mbap Server SpecServer Listener AsyncWrite ServerConn ServerTcp SpecServerTcp.

Section Calls.
Context {W : Type}.
Context (on_request : N -> W -> request -> W * expected response * list api).
Context (on_shutdown : N -> W -> W * list api).

Lemma server_call pol (h : tserver W) a : exists h' q, userver_step on_request on_shutdown pol h (UApi a) = Ret (h', [TaskIn (EApi a)]) /\
  us_user h' = us_user h /\ us_listener h' = us_listener h /\ us_conns h' = us_conns h /\
  us_channel h' = set_queue (us_channel h) (sv_queue (us_channel h) ++ q) /\ (List.length q <= 1)%nat.
Proof.
  destruct h as [ch u l c o]. unfold userver_step, task_turn. cbn.
  destruct a as [| |unit x]; cbn; destruct ch as [sd st ss q0 cs]; cbn; try destruct sd.
  all: first [ eexists; exists []; rewrite app_nil_r; split; [reflexivity|]; repeat split; auto; fail
             | do 2 eexists; split; [reflexivity|]; cbn; repeat split; apply le_n ].
Qed.
End Calls.
