(** Histories of a client in which the same arrives in other pieces. *)
From Verif Require Import Prelude Ser4 Messages Mbap SpecPdu SpecMbap MbapFacts MbapLemmas Client SpecClient ClientCases SpecServer SpecChunks SpecClientChunks.

Definition ended (pol : copy_policy) (buf : list N) (es : list cevent) : list (nat * expected (list N)) :=
  match client_run idle pol (client_init buf) tt es with Ret (_, _, o) => results o | UB => [] end.

Lemma ended_run pol buf es s w o : client_run idle pol (client_init buf) tt es = Ret (s, w, o) -> ended pol buf es = results o.
Proof. unfold ended. intros ->. reflexivity. Qed.

Lemma some_bytes l : forallb (fun x => x <? 256) l = true -> bytes l.
Proof. intros H. apply Forall_forall. intros x Hx. rewrite forallb_forall in H. specialize (H x Hx). apply N.ltb_lt in H. exact H. Qed.

(** An over-long answer in one piece and in two. *)
Definition waiting : list cevent := [CApi (Submit read_call); CRun].
Definition long_answer : list N := frame_bytes 0 7 (99 :: repeat 7 253).

Lemma client_pieces_noticed :
  ~ (forall (W : Type) (handler : nat -> W -> expected (list N) -> W * list capi) pol buf buf' w es es', good_buf buf -> good_buf buf' ->
     crechunked es es' -> Forall typed_cevent es -> Forall typed_cevent es' ->
     exists s t w1 o, client_run handler pol (client_init buf) w es = Ret (s, w1, o) /\ client_run handler pol (client_init buf') w es' = Ret (t, w1, o)).
Proof.
  intros H. destruct (H unit idle AllOrNothing (repeat 0 260) (repeat 0 260) tt (waiting ++ [CReceive long_answer])
    (waiting ++ [CReceive (firstn 8 long_answer); CReceive (skipn 8 long_answer)])) as (s & t & w & o & E1 & E2); try exact good_zero.
  - unfold waiting. cbn [app]. do 2 constructor. exact (cc_receive [long_answer] [firstn 8 long_answer; skipn 8 long_answer] [] [] eq_refl cc_nil).
  - repeat (constructor; [exact Logic.I|]). constructor; [|constructor]. apply some_bytes. vm_compute. reflexivity.
  - repeat (constructor; [exact Logic.I|]). do 2 (constructor; [apply some_bytes; vm_compute; reflexivity|]). constructor.
  - apply ended_run in E1, E2. rewrite <- E2 in E1. vm_compute in E1. discriminate E1.
Qed.

(** An answer byte by byte, to a client whose memory held something else. *)
Lemma client_bytewise :
  crechunked (waiting ++ [CReceive (ClientCases.answer 0)]) (waiting ++ map (fun x => CReceive [x]) (ClientCases.answer 0)) /\
  ended AllOrNothing (repeat 0 260) (waiting ++ [CReceive (ClientCases.answer 0)]) = [(0%nat, Value [1; 1; 3])] /\
  ended AllOrNothing (repeat 255 260) (waiting ++ map (fun x => CReceive [x]) (ClientCases.answer 0)) = [(0%nat, Value [1; 1; 3])].
Proof.
  split; [|vm_compute; auto]. unfold waiting. cbn [app]. do 2 constructor.
  replace (map (fun x => CReceive [x]) (ClientCases.answer 0)) with (map CReceive (map (fun x => [x]) (ClientCases.answer 0)) ++ []) by reflexivity.
  apply (cc_receive [ClientCases.answer 0] (map (fun x => [x]) (ClientCases.answer 0)) [] []); [reflexivity|constructor].
Qed.

(** After an empty answer any byte is noticed. *)
Definition answered_empty : list cevent := waiting ++ [CReceive (frame_bytes 0 7 []); CExpire 0].

Lemma nothing_completed : completes_nothing (carrived [] answered_empty) [0].
Proof.
  change (carrived [] answered_empty) with (frame_bytes 0 7 []). intros items tail F.
  assert (F0 : framed (frame_bytes 0 7 []) [frame 0 7 []] []).
  { split; [constructor; [|constructor]|]. { repeat split; try reflexivity; try constructor; discriminate. } split; [reflexivity|left; reflexivity]. }
  destruct (framed_unique _ _ _ _ _ F F0) as [-> ->]. exists [0]. destruct F0 as (A & B & _). split; [exact A|]. split; [reflexivity|left; reflexivity].
Qed.

Lemma client_postponed_noticed :
  ~ (forall (W : Type) (handler : nat -> W -> expected (list N) -> W * list capi) pol buf w a d e b, good_buf buf -> Forall typed_cevent (a ++ CReceive d :: e :: b) ->
     match e with CReceive _ | CError _ => False | _ => True end -> completes_nothing (carrived [] a) d -> pol = Truncate ->
     exists s t w1 o, client_run handler pol (client_init buf) w (a ++ CReceive d :: e :: b) = Ret (s, w1, o) /\
       client_run handler pol (client_init buf) w (a ++ e :: CReceive d :: b) = Ret (t, w1, o)).
Proof.
  intros H. destruct (H unit idle Truncate (repeat 0 260) tt answered_empty [0] (CFire 0) []) as (s & t & w & o & E1 & E2).
  - exact good_zero.
  - repeat (constructor; [first [exact Logic.I|apply some_bytes; reflexivity]|]). constructor.
  - exact Logic.I.
  - exact nothing_completed.
  - reflexivity.
  - apply ended_run in E1, E2. rewrite <- E2 in E1. vm_compute in E1. discriminate E1.
Qed.

Lemma noticed_case :
  ended Truncate (repeat 0 260) (answered_empty ++ [CReceive [0]; CFire 0]) = [(0%nat, Value [])] /\
  ended Truncate (repeat 0 260) (answered_empty ++ [CFire 0; CReceive [0]]) = [(0%nat, Error ETimeout)].
Proof. split; vm_compute; reflexivity. Qed.
