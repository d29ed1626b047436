(** Proofs about the example client. *)
From Verif Require Import Prelude Ser4 Messages Mbap SpecPdu SpecMbap Client SpecClient ClientFacts ClientView
  Scheduled SpecScheduled SessionCall Session SpecSession SessionLift SessionFacts SessionInv SessionLemmas SessionCalls SessionDown SessionMeant
  Config Ids ExampleClient SpecExampleClient ExampleClientFacts.
From Coq Require Import String Lia.

Lemma flat_map_ext_in {A B} (f g : A -> list B) l : (forall x, In x l -> f x = g x) -> flat_map f l = flat_map g l.
Proof.
  induction l as [|a l IH]; intros H; [reflexivity|]. cbn [flat_map]. rewrite (H a (or_introl eq_refl)), IH; [reflexivity|].
  intros x Hx. apply H. right. exact Hx.
Qed.

(** ** Calls *)
Section Calls.
Context {W : Type}.
Context (user : source -> W -> expected response -> W * list kapi).
Implicit Types (k : stack W).

Lemma history_log pol es k os : stack_history user pol es k os -> ks_log (st_rest k) = [].
Proof. intros H. destruct (sessions_history _ _ _ _ _ H) as (buf & Hb & V). exact (vw_log _ _ _ _ _ _ V). Qed.

Lemma opened_exists pol es k os x u t : stack_history user pol es k os -> In (Opened x u t) os -> exists s, nth_error (ks_sessions (st_rest k)) x = Some s.
Proof.
  intros H Hx. destruct (sessions_inv _ _ _ _ _ H) as [[R _ _] _ _]. assert (K := rg_open_ids _ _ _ R).
  destruct (nth_error (ks_sessions (st_rest k)) x) as [s|] eqn:E; [eauto|]. exfalso. apply nth_error_None in E.
  assert (Hi : In x (opened_ids (inner os))).
  { apply in_flat_map. exists (Opened x u t). split; [apply in_inner; split; [exact Hx|discriminate]|left; reflexivity]. }
  rewrite K in Hi. apply in_seq in Hi. lia.
Qed.

Lemma scheduled_exists pol es k os j x r t f : stack_history user pol es k os -> In (Scheduled j x r t f) os ->
  exists p, nth_error (ks_polls (st_rest k)) j = Some p.
Proof.
  intros H Hj. destruct (sessions_inv _ _ _ _ _ H) as [[R _ _] _ _].
  destruct (scheduled_poll _ _ _ j x r t f R) as (p & s & Ep & _); [apply in_inner; split; [exact Hj|discriminate]|]. eauto.
Qed.

Lemma send_step pol es k os x u d r t k' o : stack_history user pol es k os -> In (Opened x u d) os ->
  stack_step user pol k (KApi (Send x r t)) = Ret (k', o) -> exists o1 n, o = map Channel o1 ++ [Asked (Send x r t); Issued n x r t].
Proof.
  intros H Hx. destruct (opened_exists _ _ _ _ _ _ _ H Hx) as (s & Es). assert (Hl := history_log _ _ _ _ H).
  cbn [stack_step kapi_call]. cbn [ks_sessions show with_log]. rewrite Es. cbn [finish].
  destruct (capi_calls _ _) as [s1 o1]. intros E. exists o1, (List.length (ks_owners (st_rest k))). inversion E; subst. cbn [ks_log with_owner show with_log]. rewrite Hl. reflexivity.
Qed.

Lemma method_step pol es k os j x r t f a k' o : stack_history user pol es k os -> In (Scheduled j x r t f) os ->
  stack_step user pol k (KApi (OnSchedule j a)) = Ret (k', o) -> o = [Asked (OnSchedule j a)].
Proof.
  intros H Hj. destruct (scheduled_exists _ _ _ _ _ _ _ _ _ H Hj) as (p & Ep). assert (Hl := history_log _ _ _ _ H).
  cbn [stack_step kapi_call]. unfold post_poll. cbn [ks_polls show with_log]. rewrite Ep. cbn [finish capi_calls].
  intros E. inversion E; subst. cbn. rewrite Hl. reflexivity.
Qed.

Lemma history_step pol es k os e k' o : stack_history user pol es k os -> typed_kevent e -> stack_step user pol k e = Ret (k', o) ->
  stack_history user pol (es ++ [e]) k' (os ++ o).
Proof.
  intros (buf & w & Hb & T & E) He Es. exists buf, w. split; [exact Hb|]. split; [apply Forall_app; split; [exact T|constructor; [exact He|constructor]]|].
  rewrite stack_run_snoc, E. cbn [obind]. rewrite Es. reflexivity.
Qed.

Lemma owner_of_issued pol es k os i x r t : stack_history user pol es k os -> In (Issued i x r t) os ->
  nth_error (ks_owners (st_rest k)) i = Some (ByUser r).
Proof.
  intros H Hi. destruct (sessions_inv _ _ _ _ _ H) as [[R _ _] _ _].
  assert (K : In (Issued i x r t) (inner os)) by (apply in_inner; split; [exact Hi|discriminate]).
  exact (proj1 (issued_owner _ _ _ i x r t R K)).
Qed.
End Calls.

(** ** The program *)
Section Program.
Context (text : nat -> string) (pol : copy_policy) (buf : list N).
Context (Hbuf : good_buf buf).

Definition lines (x : prog) (os : list koutput) : list string := flat_map (printed text (ks_owners (st_rest (pg_stack x)))) os.

(** What is made besides one-time requests of the session. *)
Definition foreign (y : koutput) : Prop := made y = true /\ forall i r t, y <> Issued i 0 r t.

Record ran (cs : list N) (x : prog) (os : list koutput) (ls : list string) : Prop := {
  r_run : exists kes, Forall typed_kevent kes /\ stack_run example_handlers pol (stack_init buf tt) kes = Ret (pg_stack x, os);
  r_open : In (Opened 0 1 3000) os;
  r_sched : In (Scheduled 0 0 polled_request None 2000) os;
  r_unclosed : unclosed os;
  r_made : forall y, In y os -> foreign y -> y = Opened 0 1 3000 \/ y = Scheduled 0 0 polled_request None 2000;
  r_sent : sent_once os = map (pair 0%nat) (flat_map asks cs);
  r_lines : ls = lines x os
}.

Lemma ran_history cs x os ls : ran cs x os ls -> exists kes, stack_history example_handlers pol kes (pg_stack x) os.
Proof. intros R. destruct (r_run _ _ _ _ R) as (kes & T & E). exists kes, buf, tt. auto. Qed.

Lemma lines_grow kes k os e k' o : stack_history example_handlers pol kes k os -> typed_kevent e -> stack_step example_handlers pol k e = Ret (k', o) ->
  flat_map (printed text (ks_owners (st_rest k'))) os = flat_map (printed text (ks_owners (st_rest k))) os.
Proof.
  intros H He Es. assert (H' := history_step _ _ _ _ _ _ _ _ H He Es). apply flat_map_ext_in. intros y Hy. destruct y; try reflexivity.
  destruct (answer_source _ _ _ _ _ _ _ H Hy) as (x & r & t & z & Hi & _ & _). cbn [printed].
  rewrite (owner_of_issued _ _ _ _ _ _ _ _ _ H Hi), (owner_of_issued _ _ _ _ _ _ _ _ _ H' (in_or_app _ _ _ (or_introl Hi))). reflexivity.
Qed.

Lemma part_ran cs x os ls e x' o p cs' : ran cs x os ls -> typed_kevent e -> stack_part text pol x e = Ret (x', (o, p)) ->
  unclosed o -> (forall y, In y o -> ~ foreign y) -> sent_once o = map (pair 0%nat) (flat_map asks cs') -> ran (cs ++ cs') x' (os ++ o) (ls ++ p) /\ pg_over x' = false.
Proof.
  intros R He E Hu Hm Hs. unfold stack_part in E.
  destruct (stack_step example_handlers pol (pg_stack x) e) as [[k o']|] eqn:Es; cbn [obind] in E; [|discriminate]. inversion E; subst.
  split; [|reflexivity]. destruct (r_run _ _ _ _ R) as (kes & T & Er).
  assert (H : stack_history example_handlers pol kes (pg_stack x) os) by (exists buf, tt; auto). constructor; cbn [pg_stack].
  - exists (kes ++ [e]). split; [apply Forall_app; split; [exact T|constructor; [exact He|constructor]]|].
    rewrite stack_run_snoc, Er. cbn [obind]. rewrite Es. reflexivity.
  - apply in_or_app. left. exact (r_open _ _ _ _ R).
  - apply in_or_app. left. exact (r_sched _ _ _ _ R).
  - destruct (r_unclosed _ _ _ _ R) as [U1 U2]. destruct Hu as [V1 V2]. split; [|intros y]; rewrite in_app_iff; intros [K|K]; [exact (U1 K)|exact (V1 K)|exact (U2 _ K)|exact (V2 _ K)].
  - intros y Hy F. apply in_app_iff in Hy. destruct Hy as [Hy|Hy]; [exact (r_made _ _ _ _ R y Hy F)|destruct (Hm _ Hy F)].
  - unfold sent_once. rewrite flat_map_app. fold (sent_once os) (sent_once o). rewrite (r_sent _ _ _ _ R), Hs, flat_map_app, map_app. reflexivity.
  - rewrite (r_lines _ _ _ _ R). unfold lines. cbn [pg_stack]. rewrite flat_map_app. f_equal.
    symmetry. exact (lines_grow _ _ _ _ _ _ H He Es).
Qed.

Lemma part_total cs x os ls e : ran cs x os ls -> typed_kevent e -> exists x' o p, stack_part text pol x e = Ret (x', (o, p)).
Proof.
  intros R He. destruct (r_run _ _ _ _ R) as (kes & T & Er). 
  destruct (never_stuck example_handlers pol buf tt (kes ++ [e])) as (k & os' & E & _); [exact Hbuf|apply Forall_app; split; [exact T|constructor; [exact He|constructor]]|].
  rewrite stack_run_snoc, Er in E. cbn [obind] in E. unfold stack_part.
  destruct (stack_step example_handlers pol (pg_stack x) e) as [[k1 o1]|]; cbn [obind] in *; [eauto|discriminate].
Qed.

Lemma unclosed_quiet o : asked o = [] -> unclosed o.
Proof. intros A. apply (unasked_unclosed [] o); [split; [intros []|intros x []]|exact A]. Qed.

Lemma unmade_unforeign o : existsb made o = false -> forall y, In y o -> ~ foreign y.
Proof. intros M y Hy [F _]. assert (existsb made o = true) by (apply existsb_exists; eauto). congruence. Qed.

Lemma issued_unforeign o1 a n r t y : In y (map Channel o1 ++ [Asked a; Issued n 0 r t]) -> ~ foreign y.
Proof.
  intros Hy [F1 F2]. apply in_app_iff in Hy. destruct Hy as [Hy|[<- | [<- | []]]]; [|discriminate|exact (F2 _ _ _ eq_refl)].
  apply in_map_iff in Hy. destruct Hy as (z & <- & _). discriminate.
Qed.

Lemma init_ran : exists x os ls, prog_init text pol buf = Ret (x, (os, ls)) /\ ran [] x os ls /\ pg_over x = false /\
  os = [Asked (Open 1 3000); Opened 0 1 3000; Asked (Schedule 0 polled_request None 2000); Scheduled 0 0 polled_request None 2000] /\ ls = [].
Proof.
  do 3 eexists. split; [reflexivity|]. split; [|split; [reflexivity|split; reflexivity]]. constructor.
  - exists [KApi (Open 1 3000); KApi (Schedule 0 polled_request None 2000)]. split; [repeat constructor|]. reflexivity.
  - right. left. reflexivity.
  - right. right. right. left. reflexivity.
  - split; [|intros x]; intros H; cbn in H; intuition discriminate.
  - intros y [<- | [<- | [<- | [<- | []]]]] [F1 _]; try discriminate; auto.
  - reflexivity.
  - reflexivity.
Qed.

Lemma calls_total cs x os ls l : ran cs x os ls -> (List.length l <= 1)%nat -> exists x' o p, make_calls text pol x l = Ret (x', (o, p)).
Proof.
  intros R Hl. destruct l as [|a [|b l]]; [do 3 eexists; reflexivity| |cbn in Hl; lia]. cbn [make_calls].
  destruct (part_total _ _ _ _ (KApi a) R Logic.I) as (x' & o & p & ->). cbn [obind]. eauto.
Qed.

Definition one (e : pevent) : list N := match e with PCommand c => if c =? 113 then [] else [c] | _ => [] end.

Lemma command_cases k c : 
  (c = 114 /\ command_calls k c = [Send 0 coil_request (Some 3000)]) \/
  (c = 119 /\ command_calls k c = [Send 0 registers_request None]) \/
  (exists a, (c = 115 \/ c = 102) /\ command_calls k c = [OnSchedule 0 a]) \/
  (c <> 115 /\ c <> 102 /\ asks c = [] /\ command_calls k c = []).
Proof.
  unfold command_calls, asks. destruct (N.eqb_spec c 114); [auto|]. destruct (N.eqb_spec c 119); [auto|].
  destruct (N.eqb_spec c 115); [right; right; left; eauto|]. destruct (N.eqb_spec c 102); [right; right; left; eauto|]. auto 10.
Qed.

Lemma step_ran cs x os ls e : ran cs x os ls -> pg_over x = false -> typed_pevent e ->
  exists x' o p, prog_step text pol x e = Ret (x', (o, p)) /\ ran (cs ++ one e) x' (os ++ o) (ls ++ p) /\ pg_over x' = quits e.
Proof.
  intros R Ho He. unfold prog_step. rewrite Ho.
  assert (Same : ran (cs ++ []) x (os ++ []) (ls ++ [])) by (rewrite !app_nil_r; exact R).
  destruct e as [e|c|]; [| |destruct He].
  - assert (Q : match e with KApi _ => False | _ => True end -> exists x' o p, stack_part text pol x e = Ret (x', (o, p)) /\
        ran (cs ++ []) x' (os ++ o) (ls ++ p) /\ pg_over x' = false).
    { intros Hq. destruct (part_total _ _ _ _ e R He) as (x' & o & p & E). exists x', o, p. split; [exact E|].
      destruct (ran_history _ _ _ _ R) as (kes & H). assert (E' := E). unfold stack_part in E'.
      destruct (stack_step example_handlers pol (pg_stack x) e) as [[k o']|] eqn:Es; cbn [obind] in E'; [|discriminate]. inversion E'; subst.
      destruct (quiet_step _ _ _ _ _ _ _ H (r_unclosed _ _ _ _ R) He Hq Es) as [A M].
      apply (part_ran cs x os ls e); [exact R|exact He|exact E|exact (unclosed_quiet _ A)|exact (unmade_unforeign _ M)|exact (unmade_sent _ M)]. }
    destruct e as [a| |j t|j t|e]; [exists x, [], []; split; [reflexivity|split; [exact Same|exact Ho]]|exact (Q Logic.I)..].
  - cbn [one quits]. destruct (N.eqb_spec c 113) as [Hc|Hc].
    { do 3 eexists. split; [reflexivity|]. split; [|reflexivity]. rewrite !app_nil_r. destruct R as [R1 R2 R3 R4 R5 R6 R7].
      constructor; [exact R1|exact R2|exact R3|exact R4|exact R5|exact R6|exact R7]. }
    assert (Q : forall a, command_calls (pg_stack x) c = [a] -> a <> CloseChannel -> (forall y, a <> CloseSession y) ->
       (forall k o, stack_step example_handlers pol (pg_stack x) (KApi a) = Ret (k, o) ->
          (forall y, In y o -> ~ foreign y) /\ sent_once o = map (pair 0%nat) (asks c)) ->
       exists x' o p, make_calls text pol x (command_calls (pg_stack x) c) = Ret (x', (o, p)) /\ ran (cs ++ [c]) x' (os ++ o) (ls ++ p) /\ pg_over x' = false).
    { intros a -> Ha1 Ha2 Hs. destruct (part_total _ _ _ _ (KApi a) R Logic.I) as (x' & o & p & E). exists x', o, p.
      cbn [make_calls]. rewrite E. cbn [obind]. split; [rewrite !app_nil_r; reflexivity|].
      destruct (ran_history _ _ _ _ R) as (kes & H). assert (E' := E). unfold stack_part in E'.
      destruct (stack_step example_handlers pol (pg_stack x) (KApi a)) as [[k o']|] eqn:Es; cbn [obind] in E'; [|discriminate]. inversion E'; subst.
      destruct (handlers_take_effect _ _ _ _ _ (KApi a) _ _ H Logic.I Es) as (c0 & _ & _ & Ea).
      apply (part_ran cs x os ls (KApi a)); [exact R|exact Logic.I|exact E| |exact (proj1 (Hs _ _ eq_refl))|cbn [flat_map]; rewrite app_nil_r; exact (proj2 (Hs _ _ eq_refl))].
      split; [|intros y]; intros K; apply in_asked in K; rewrite Ea in K; destruct K as [K|[]]; [exact (Ha1 K)|exact (Ha2 _ K)]. }
    destruct (ran_history _ _ _ _ R) as (kes & H).
    destruct (command_cases (pg_stack x) c) as [[-> Ec]|[[-> Ec]|[(a & Hc' & Ec)|(Hc1 & Hc2 & Hc3 & Ec)]]].
    + refine (Q _ Ec _ _ _); [discriminate|discriminate|]. intros k o Es.
      destruct (send_step _ _ _ _ _ _ _ _ _ _ _ _ H (r_open _ _ _ _ R) Es) as (o1 & n & ->).
      split; [apply issued_unforeign|].
      unfold sent_once. rewrite flat_map_app. replace (flat_map _ (map Channel o1)) with (@nil (nat * (request * option N))); [reflexivity|].
      clear. induction o1 as [|y o1 IH]; [reflexivity|exact IH].
    + refine (Q _ Ec _ _ _); [discriminate|discriminate|]. intros k o Es.
      destruct (send_step _ _ _ _ _ _ _ _ _ _ _ _ H (r_open _ _ _ _ R) Es) as (o1 & n & ->).
      split; [apply issued_unforeign|].
      unfold sent_once. rewrite flat_map_app. replace (flat_map _ (map Channel o1)) with (@nil (nat * (request * option N))); [reflexivity|].
      clear. induction o1 as [|y o1 IH]; [reflexivity|exact IH].
    + refine (Q _ Ec _ _ _); [discriminate|discriminate|]. intros k o Es.
      rewrite (method_step _ _ _ _ _ _ _ _ _ _ _ _ _ H (r_sched _ _ _ _ R) Es).
      split; [intros y [<- | []] [F _]; discriminate|]. destruct Hc' as [-> | ->]; reflexivity.
    + rewrite Ec. cbn [make_calls]. exists x, [], []. split; [reflexivity|]. split; [|exact Ho]. rewrite !app_nil_r.
      destruct R as [R1 R2 R3 R4 R5 R6 R7]. constructor; [exact R1|exact R2|exact R3|exact R4|exact R5| |exact R7].
      rewrite flat_map_app. cbn [flat_map]. rewrite Hc3, !app_nil_r. exact R6.
Qed.

Lemma over_run es : forall x, pg_over x = true -> prog_run text pol x es = Ret (x, ([], [])).
Proof.
  induction es as [|e es IH]; intros x H; [reflexivity|]. cbn [prog_run]. unfold prog_step. rewrite H. cbn [obind]. rewrite (IH _ H). reflexivity.
Qed.

Lemma run_ran es : forall cs x os ls, ran cs x os ls -> pg_over x = false -> Forall typed_pevent es ->
  exists x' o p, prog_run text pol x es = Ret (x', (o, p)) /\ ran (cs ++ typed_before_quit es) x' (os ++ o) (ls ++ p) /\ pg_over x' = existsb quits es.
Proof.
  induction es as [|e es IH]; intros cs x os ls R Ho T.
  - exists x, [], []. cbn [typed_before_quit]. rewrite !app_nil_r. split; [reflexivity|]. split; [exact R|exact Ho].
  - inversion T as [|? ? T1 T2]; subst. destruct (step_ran _ _ _ _ e R Ho T1) as (x1 & o1 & p1 & E1 & R1 & Ho1).
    cbn [prog_run existsb]. rewrite E1. cbn [obind]. destruct (quits e) eqn:Eq.
    + rewrite (over_run _ _ Ho1). cbn [obind]. exists x1, o1, p1. rewrite !app_nil_r. split; [reflexivity|]. split; [|exact Ho1].
      destruct e as [e|c|]; try discriminate. cbn [quits] in Eq. cbn [typed_before_quit]. cbn [one] in R1. rewrite Eq in R1. rewrite Eq. exact R1.
    + destruct (IH _ _ _ _ R1 Ho1 T2) as (x2 & o2 & p2 & E2 & R2 & Ho2). rewrite E2. cbn [obind]. exists x2, (o1 ++ o2), (p1 ++ p2).
      split; [reflexivity|]. split; [|exact Ho2]. rewrite !app_assoc.
      replace (typed_before_quit (e :: es)) with (one e ++ typed_before_quit es); [rewrite app_assoc; exact R2|].
      destruct e as [e|c|]; try reflexivity. cbn [quits] in Eq. cbn [typed_before_quit one]. rewrite Eq. reflexivity.
Qed.

Lemma history_ran es x os ls : prog_history text pol buf es x os ls -> ran (typed_before_quit es) x os ls /\ pg_over x = existsb quits es.
Proof.
  intros (_ & T & x0 & o1 & p1 & o2 & p2 & E1 & E2 & -> & ->). destruct init_ran as (y & os & ls & E & R & Ho & _).
  rewrite E in E1. inversion E1; subst. destruct (run_ran es _ _ _ _ R Ho T) as (x' & o & p & E' & R' & Ho').
  rewrite E' in E2. inversion E2; subst. split; [exact R'|exact Ho'].
Qed.

Lemma history_total es : Forall typed_pevent es -> exists x os ls, prog_history text pol buf es x os ls.
Proof.
  intros T. destruct init_ran as (y & os & ls & E & R & Ho & _). destruct (run_ran es _ _ _ _ R Ho T) as (x' & o & p & E' & R' & Ho').
  exists x', (os ++ o), (ls ++ p). split; [exact Hbuf|]. split; [exact T|]. exists y, os, ls, o, p. auto.
Qed.
End Program.
