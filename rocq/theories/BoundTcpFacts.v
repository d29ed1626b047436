(** Proofs about how much a server sends on a connection for how much arrives there. *)
From Verif Require Import Prelude Ser4 Messages Mbap SpecPdu SpecMbap Server SpecServer Listener SpecListener AsyncWrite ServerConn SpecConn ConnFacts
  ServerTcp SpecServerTcp ServerTcpFacts ServerTcpLemmas ServerTcpTheorems ServerConnFacts ServerConnMore SpecBound BoundFacts.

Local Open Scope nat_scope.

Lemma took_less (t s : list (nat * list N)) : NoDup (map fst t) ->
  (forall w x, In (w, x) t -> exists d y, In (w, d) s /\ d = x ++ y) ->
  total (map (fun p => List.length (snd p)) t) <= total (map (fun p => List.length (snd p)) s).
Proof.
  revert s. induction t as [|[w x] t IH]; intros s Hn Hs; [cbn; lia|].
  destruct (Hs w x (or_introl eq_refl)) as (d & y & Hd & ->).
  apply in_split in Hd. destruct Hd as (a & b & ->).
  inversion Hn as [|? ? Hw Ht]; subst. cbn [map fst] in Hw.
  assert (H : total (map (fun p => List.length (snd p)) t) <= total (map (fun p => List.length (snd p)) (a ++ b))).
  { apply IH; [exact Ht|]. intros w' x' Hi. destruct (Hs w' x' (or_intror Hi)) as (d' & y' & Hd' & ->).
    exists (x' ++ y'), y'. split; [|reflexivity]. apply in_app_or in Hd'. apply in_or_app.
    destruct Hd' as [Hd'|[Hd'|Hd']]; auto. injection Hd' as -> _.
    destruct Hw. change w' with (fst (w', x')). apply in_map. exact Hi. }
  cbn [map]. rewrite total_cons. cbn [snd]. rewrite !map_app, !total_app in *. cbn [map]. rewrite total_cons. cbn [snd].
  rewrite app_length. lia.
Qed.

Lemma bytes_out_took os : bytes_out os = total (map (fun p => List.length (snd p)) (took (vwrites os))).
Proof.
  unfold bytes_out, took, vwrites. induction os as [|o os IH]; [reflexivity|]. cbn [map flat_map]. rewrite total_cons, IH.
  destruct o as [[| | |]| | | | |]; cbn [app flat_map map]; try reflexivity.
Qed.

Lemma bytes_in_heard os : bytes_in os = total (map (fun o => match o with Chunk d => List.length d | Reset => 0 end) (heard os)).
Proof.
  unfold bytes_in, heard. induction os as [|o os IH]; [reflexivity|]. cbn [map flat_map]. rewrite total_cons, IH.
  destruct o; reflexivity.
Qed.

Lemma received_ops c es : received_on c es = total (map (fun o => match o with Chunk d => List.length d | Reset => 0 end) (ops_on c es)).
Proof.
  unfold received_on, ops_on. induction es as [|e es IH]; [reflexivity|]. cbn [map flat_map]. rewrite total_cons, IH, map_app, total_app.
  destruct e; try reflexivity; destruct (N.eqb conn c); cbn; lia.
Qed.

Section Facts.
Context {W : Type}.
Context (on_request : N -> W -> request -> W * expected response * list api).
Context (on_shutdown : N -> W -> W * list api).

Lemma out_sent pol max w0 es h m c : server_history on_request on_shutdown pol max w0 es h m ->
  bytes_out (peer_outs c m) <= sent_on (N.of_nat c) (task_outs m).
Proof.
  intros H. destruct (server_parts _ _ _ _ _ _ _ _ H) as (T & R & _ & P). destruct (P c) as [RC _].
  destruct (server_sound_writes _ _ _ RC) as (_ & H2 & _ & H4).
  rewrite bytes_out_took. pose proof (took_less _ _ H4 H2) as L.
  pose proof (responses_sent on_request on_shutdown _ _ _ _ _ _ c H) as S. destruct (us_conns h c).
  - destruct S as (_ & late & S & _). unfold sent_on.
    apply (f_equal (map (@List.length N))) in S. rewrite map_app, !map_map in S.
    assert (Z : map (fun x => List.length (response_data x)) (sends_on (N.of_nat c) (task_outs m)) =
                map (@List.length (option N)) (sends_on (N.of_nat c) (task_outs m))).
    { apply map_ext. intros x. unfold response_data. apply map_length. }
    rewrite Z in S. rewrite S, total_app. lia.
  - destruct S as [_ S]. rewrite S in *. cbn. lia.
Qed.

Theorem wire_bound (Hwt : well_typed on_request) pol max w0 es h m c : server_history on_request on_shutdown pol max w0 es h m ->
  12 * bytes_out (peer_outs c m) <= 260 * bytes_in (peer_outs c m).
Proof.
  intros H. pose proof (out_sent _ _ _ _ _ _ c H) as O.
  destruct (server_parts _ _ _ _ _ _ _ _ H) as (T & R & _ & P).
  destruct (server_wired _ _ _ _ _ _ _ _ H) as (_ & Wi). destruct (Wi c) as (_ & Hh & _).
  rewrite bytes_in_heard, Hh, <- received_ops.
  pose proof (bytes_bound on_request on_shutdown Hwt pol w0 (task_ins m) _ _ _ T R (N.of_nat c)) as B. lia.
Qed.

Theorem wire_bound_kind (Hwt : well_typed on_request) pol max w0 es h m c : answers_in_kind on_request ->
  server_history on_request on_shutdown pol max w0 es h m ->
  12 * bytes_out (peer_outs c m) <= 259 * bytes_in (peer_outs c m).
Proof.
  intros K H. pose proof (out_sent _ _ _ _ _ _ c H) as O.
  destruct (server_parts _ _ _ _ _ _ _ _ H) as (T & R & _ & P).
  destruct (server_wired _ _ _ _ _ _ _ _ H) as (_ & Wi). destruct (Wi c) as (_ & Hh & _).
  rewrite bytes_in_heard, Hh, <- received_ops.
  pose proof (bytes_bound_kind on_request on_shutdown Hwt pol w0 (task_ins m) _ _ _ T R (N.of_nat c) K) as B. lia.
Qed.
End Facts.
