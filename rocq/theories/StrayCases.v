(** Histories with frames that are for nobody. *)
From Verif Require Import Prelude Ser4 Messages Mbap SpecPdu SpecMbap MbapFacts MbapLemmas Client SpecClient ClientCases SpecServer SpecClientChunks ClientChunksCases SpecStray.

Definition sent_as (os : list coutput) : list (nat * N * N) :=
  flat_map (fun o => match o with Sent i u t _ => [(i, u, t)] | _ => [] end) os.

Lemma sent_as_in os i u t v : In (Sent i u t v) os -> In (i, u, t) (sent_as os).
Proof. intros H. apply in_flat_map. exists (Sent i u t v). split; [exact H|left; reflexivity]. Qed.

Definition observed_of (pol : copy_policy) (es : list cevent) : list coutput :=
  match client_run idle pol (client_init (repeat 0 260)) tt es with Ret (_, _, o) => o | UB => [] end.

Lemma no_stray pol es items : (forall x q, In x items -> In q (sent_as (observed_of pol es)) -> (i_unit x, i_tx x) <> (snd (fst q), snd q)) ->
  answers_nothing (observed_of pol es) items.
Proof. intros H x i u t v Hx Hs _. exact (H x (i, u, t) Hx (sent_as_in _ _ _ _ _ Hs)). Qed.

(** After an empty answer, any frame is noticed. *)
Definition nobodys : item := frame 5 7 [1].

Lemma nobodys_whole : whole (item_bytes nobodys) [nobodys].
Proof. split; [|reflexivity]. constructor; [|constructor]. repeat split; try reflexivity; [constructor; [reflexivity|constructor]|discriminate]. Qed.

Lemma strays_noticed :
  ~ (forall (W : Type) (handler : nat -> W -> expected (list N) -> W * list capi) pol buf w a d its items b s0 w0 o0, good_buf buf ->
     Forall typed_cevent (a ++ CReceive d :: b) -> pol = Truncate -> whole (carrived [] a) its ->
     client_run handler pol (client_init buf) w a = Ret (s0, w0, o0) -> whole d items -> ~ ends_with_empty items [] -> answers_nothing o0 items ->
     exists s t w1 o, client_run handler pol (client_init buf) w (a ++ CReceive d :: b) = Ret (s, w1, o) /\
       client_run handler pol (client_init buf) w (a ++ b) = Ret (t, w1, o)).
Proof.
  intros H. destruct (client_run idle Truncate (client_init (repeat 0 260)) tt answered_empty) as [[[s0 w0] o0]|] eqn:E; [|vm_compute in E; discriminate E].
  assert (Eo : observed_of Truncate answered_empty = o0) by (unfold observed_of; rewrite E; reflexivity).
  destruct (H unit idle Truncate (repeat 0 260) tt answered_empty (item_bytes nobodys) [frame 0 7 []] [nobodys] [CFire 0] s0 w0 o0) as (s & t & w & o & E1 & E2).
  - exact good_zero.
  - repeat (constructor; [first [exact Logic.I|apply some_bytes; reflexivity]|]). constructor.
  - reflexivity.
  - split; [|reflexivity]. constructor; [|constructor]. repeat split; try reflexivity; [constructor|discriminate].
  - exact E.
  - exact nobodys_whole.
  - intros (_ & is & i & K & B). destruct is as [|x [|y is]]; [injection K as <-; discriminate B|discriminate K|discriminate K].
  - rewrite <- Eo. apply no_stray. intros x q [<-|[]] Hq. vm_compute in Hq. destruct Hq as [<-|[]]. discriminate.
  - apply ended_run in E1, E2. rewrite <- E2 in E1. vm_compute in E1. discriminate E1.
Qed.

(** The answer to a request that has timed out arrives while the next is waited for. *)
Definition timed_out_once : list cevent := [CApi (Submit read_call); CRun; CExpire 0; CFire 0; CApi (Submit read_call); CRun].

Lemma timed_out_sent : sent_as (observed_of Truncate timed_out_once) = [(0%nat, 7, 0); (1%nat, 7, 1)] /\ completed_ids (observed_of Truncate timed_out_once) = [0%nat].
Proof. vm_compute. split; reflexivity. Qed.

Lemma late_answer_case :
  dealt_with (carrived [] timed_out_once) /\ answers_nothing (observed_of Truncate timed_out_once) [frame 0 7 [1; 1; 3]] /\
  ended Truncate (repeat 0 260) (timed_out_once ++ [CReceive (item_bytes (frame 0 7 [1; 1; 3])); CReceive (item_bytes (frame 1 7 [1; 1; 2]))]) =
    [(0%nat, Error ETimeout); (1%nat, Value [1; 1; 2])] /\
  ended Truncate (repeat 0 260) (timed_out_once ++ [CReceive (item_bytes (frame 1 7 [1; 1; 2]))]) = [(0%nat, Error ETimeout); (1%nat, Value [1; 1; 2])].
Proof.
  split; [|split; [|vm_compute; auto]].
  - exists []. split; [split; [constructor|reflexivity]|apply ends_nil].
  - destruct timed_out_sent as [K1 K2]. intros x i u t v [<-|[]] Hs Hn. assert (K := sent_as_in _ _ _ _ _ Hs). rewrite K1 in K. rewrite K2 in Hn. clear Hs K1 K2.
    destruct K as [K|[K|[]]]; injection K as <- <- <-; [exfalso; apply Hn; left; reflexivity|discriminate].
Qed.
