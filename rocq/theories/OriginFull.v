(** Proofs about the origin of what users of a client are told. *)
From Verif Require Import Prelude Ser4 Messages Mbap Client Server Database System.
From Verif Require Import AsyncWrite ClientConn ClientTcp Listener ServerConn ServerTcp World.
From Verif Require Import Scheduled SessionCall Session Full.
From Verif Require Import SpecPdu SpecMbap SpecClient SpecServer SpecDb SpecConn SpecClientTcp SpecServerTcp SpecSystem SpecSession SpecWorld SpecFull SpecOrder SpecOrigin.
From Verif Require Import FullLemmas OriginFacts.

Lemma db_calls_app a b : db_calls (a ++ b) = db_calls a ++ db_calls b.
Proof. apply flat_map_app. Qed.

Lemma accesses_length os log : accesses os log -> List.length log = List.length (db_calls os).
Proof.
  induction 1 as [|os log o H IH E|os log c r H IH|os log i u r t tx f x v H IH]; [reflexivity| | |]; rewrite db_calls_app.
  - rewrite E, app_nil_r. exact IH.
  - rewrite !app_length, IH. reflexivity.
  - rewrite !app_length, IH. reflexivity.
Qed.

Lemma accesses_called os log : accesses os log -> forall n e i, nth_error log n = Some e -> x_by e = Some i -> exists k, In (YC (Called i k)) os.
Proof.
  induction 1 as [|os log o H IH E|os log c r H IH|os log i u r t tx f x v H IH Hc Hs]; intros n e j En Ee.
  - destruct n; discriminate.
  - destruct (IH n e j En Ee) as [k Hk]. exists k. apply in_app_iff. auto.
  - destruct (Nat.lt_ge_cases n (List.length log)) as [L|L].
    + rewrite nth_error_app1 in En by exact L. destruct (IH n e j En Ee) as [k Hk]. exists k. apply in_app_iff. auto.
    + rewrite nth_error_app2 in En by exact L. destruct (n - List.length log)%nat as [|[|m]]; try discriminate En. injection En as <-. discriminate Ee.
  - destruct (Nat.lt_ge_cases n (List.length log)) as [L|L].
    + rewrite nth_error_app1 in En by exact L. destruct (IH n e j En Ee) as [k Hk]. exists k. apply in_app_iff. auto.
    + rewrite nth_error_app2 in En by exact L. destruct (n - List.length log)%nat as [|[|m]]; try discriminate En. injection En as <-. injection Ee as <-.
      eexists. apply in_app_iff. left. exact Hc.
Qed.

Lemma snoc_split {A} (os p q : list A) o y : os ++ [o] = p ++ y :: q -> (os = p /\ o = y /\ q = []) \/ exists q', q = q' ++ [o] /\ os = p ++ y :: q'.
Proof.
  destruct q as [|z q' _] using rev_ind.
  - intros E. apply app_inj_tail in E. destruct E as [-> ->]. auto.
  - intros E. change (p ++ y :: q' ++ [z]) with (p ++ (y :: q') ++ [z]) in E. rewrite app_assoc in E. apply app_inj_tail in E. destruct E as [-> ->]. right. eauto.
Qed.

Lemma accesses_since os log : accesses os log -> forall n e i, nth_error log n = Some e -> x_by e = Some i -> since_call os i n.
Proof.
  assert (Old : forall os log o n e i, accesses os log -> since_call os i n -> nth_error log n = Some e -> x_by e = Some i -> since_call (os ++ [o]) i n).
  { clear. intros os log o n e i H IH En Ee p q k E N. destruct (snoc_split _ _ _ _ _ E) as [(-> & _)|(q' & -> & E')]; [|exact (IH p q' k E' N)].
    destruct (accesses_called _ _ H n e i En Ee) as [k' K]. destruct (N k' K). }
  induction 1 as [|os log o H IH E|os log c r H IH|os log i u r t tx f x v H IH Hc Hs]; intros n e j En Ee.
  - destruct n; discriminate.
  - apply (Old os log o n e j H); auto. exact (IH n e j En Ee).
  - destruct (Nat.lt_ge_cases n (List.length log)) as [L|L].
    + rewrite nth_error_app1 in En by exact L. apply (Old os log _ n e j H); auto. exact (IH n e j En Ee).
    + rewrite nth_error_app2 in En by exact L. destruct (n - List.length log)%nat as [|[|m]]; try discriminate En. injection En as <-. discriminate Ee.
  - destruct (Nat.lt_ge_cases n (List.length log)) as [L|L].
    + rewrite nth_error_app1 in En by exact L. apply (Old os log _ n e j H); auto. exact (IH n e j En Ee).
    + intros p q k E N. destruct (snoc_split _ _ _ _ _ E) as [(_ & E' & _)|(q' & -> & E')]; [discriminate E'|].
      assert (K := accesses_length _ _ H). rewrite E', db_calls_app, app_length in K. lia.
Qed.

Theorem told_was_given {W : Type} (user : users W) pol units d F0 w0 es w l :
  Forall u8 units -> full_history user pol units d w0 es w l -> forderly user pol w0 es l -> holds d F0 -> few_calls (world_marks l) ->
  exists os log F, observed_with_others (world_marks l) os /\ holds (us_user (wd_server w)) F /\ accesses os log /\
    calls_spec F0 (map x_call log) (map x_result log) F /\ NoDup (executed log) /\
    forall a m b s x t ad v, l = a ++ FK m :: b -> In (s, Value x) (tellings [m]) -> says x t ad v ->
      exists i r n before after, os = before ++ after /\ observed_with_others (world_marks a) before /\ request_of l s i r /\
        (n < List.length (db_calls before))%nat /\ nth_error log n = Some {| x_call := CRequest r; x_result := RResponse (Value x); x_by := Some i |} /\
        since_call os i n /\ given_last F0 (map x_call log) (map x_result log) n t ad v.
Proof.
  intros Un H O Hh Few. destruct (end_to_end user pol _ _ _ _ _ _ _ Un H O Hh) as (os & log & F & B1 & B2 & B3 & B4 & B5 & B6). exists os, log, F.
  split; [exact B1|]. split; [exact B2|]. split; [exact B3|]. split; [exact B4|]. split; [exact B5|]. intros a m b s x t ad v El Ht Hs.
  destruct (B6 Few a m b s (Value x) El Ht) as (i & r & before & after & C1 & C2 & C3 & [[_ C4]|[_ C4]]); [discriminate C4|].
  destruct C4 as [(n & C5 & C6)|[[C4 _]|[(msg & C4) _]]]; try discriminate C4.
  exists i, r, n, before, after. split; [exact C1|]. split; [exact C2|]. split; [exact C3|]. split; [exact C5|]. split; [exact C6|]. split; [exact (accesses_since _ _ B3 _ _ _ C6 eq_refl)|].
  apply (read_was_given F0 _ _ F n r x t ad v B4); [rewrite (map_nth_error x_call _ _ C6); reflexivity|rewrite (map_nth_error x_result _ _ C6); reflexivity|exact Hs].
Qed.
