(** Proofs about the MBAP stream parser and frame builder. *)
From Verif Require Import Tac Ser4 Messages Mbap SpecPdu SpecMbap BitFacts BuildFacts CodecLemmas.

(** ** Framing is unambiguous *)
Lemma be16_inj a b : be16 a = be16 b -> a = b.
Proof. unfold be16. intros H. injection H as H1 H2. lia. Qed.

Lemma announced_inj i j : announced i = announced j ->
  (i_body i = None /\ i_body j = None) \/
  (exists a b, i_body i = Some a /\ i_body j = Some b /\ List.length a = List.length b).
Proof.
  unfold announced, size.
  destruct (i_body i) as [a|], (i_body j) as [b|]; intros H; try lia; [right|left; auto].
  exists a, b. repeat split. lia.
Qed.

Lemma app_inj_length {A} (a b r r' : list A) :
  List.length a = List.length b -> a ++ r = b ++ r' -> a = b /\ r = r'.
Proof.
  revert b. induction a as [|x a IH]; intros [|y b] Hl E; try discriminate; [auto|].
  cbn in *. injection Hl as Hl. injection E as -> E. destruct (IH b Hl E) as [-> ->]. auto.
Qed.

Lemma item_bytes_inj i j r r' :
  item_bytes i ++ r = item_bytes j ++ r' -> i = j /\ r = r'.
Proof.
  unfold item_bytes. rewrite <- !app_assoc. intros E.
  apply app_inj_length in E; [|reflexivity]. destruct E as [E1 E]. apply be16_inj in E1.
  apply app_inj_length in E; [|reflexivity]. destruct E as [E2 E]. apply be16_inj in E2.
  apply app_inj_length in E; [|reflexivity]. destruct E as [E3 E]. apply be16_inj in E3.
  apply app_inj_length in E; [|reflexivity]. destruct E as [E4 E]. injection E4 as E4.
  apply announced_inj in E3. destruct i as [tx p u bd], j as [tx' p' u' bd'].
  unfold body_of in E. cbn [i_tx i_proto i_unit i_body] in *. subst.
  destruct E3 as [[-> ->]|(a & b & -> & -> & Hl)].
  - cbn in E. auto.
  - apply app_inj_length in E; [|exact Hl]. destruct E as [-> ->]. auto.
Qed.

Lemma item_bytes_size i : size (item_bytes i) = 7 + size (body_of i).
Proof.
  unfold item_bytes. rewrite !size_app. change (size (be16 (i_tx i))) with 2.
  change (size (be16 (i_proto i))) with 2. change (size (be16 (announced i))) with 2.
  change (size [i_unit i]) with 1. lia.
Qed.

Lemma item_announces i r L : announces (item_bytes i ++ r) L -> L = announced i.
Proof.
  unfold item_bytes, be16. cbn [app]. intros (a & b & c & d & e & f & x & E & ->).
  injection E as E1 E2 E3 E4 E5 E6 E7. subst e f. lia.
Qed.

Lemma item_not_incomplete i r : ~ incomplete (item_bytes i ++ r).
Proof.
  intros [H|(L & H & Hs)]; rewrite size_app, item_bytes_size in *; [lia|].
  apply item_announces in H. subst L. unfold announced, body_of in *.
  destruct (i_body i); lia.
Qed.

Lemma framed_unique bs is ts is' ts' :
  framed bs is ts -> framed bs is' ts' -> is = is' /\ ts = ts'.
Proof.
  intros (_ & -> & Hi) (_ & E & Hi'). revert is' E.
  induction is as [|i is IH]; intros [|j js] E; cbn [flat_map app] in E.
  - auto.
  - rewrite <- app_assoc in E. rewrite E in Hi. destruct (item_not_incomplete _ _ Hi).
  - rewrite <- app_assoc in E. rewrite <- E in Hi'. destruct (item_not_incomplete _ _ Hi').
  - rewrite <- !app_assoc in E. apply item_bytes_inj in E. destruct E as [-> E].
    destruct (IH js E) as [-> ->]. auto.
Qed.

(** ** Relation between the parser state and the bytes since the last boundary *)
Definition R_header (st : pstate) (t : list N) : Prop :=
  p_body st = false /\ (List.length t < 7)%nat /\ p_pos st = List.length t /\
  (p_need st + List.length t = 7)%nat /\ firstn (p_pos st) (p_buf st) = t.

Definition R_body (pol : copy_policy) (st : pstate) (t : list N) : Prop :=
  p_body st = true /\
  exists a b c d e f g body rest k,
    t = a :: b :: c :: d :: e :: f :: g :: body /\
    p_buf st = a :: b :: c :: d :: e :: f :: g :: rest /\
    N.of_nat (p_need st) + 1 + size body = e * 256 + f /\
    p_pos st = (7 + k)%nat /\ (k <= 253)%nat /\
    (e * 256 + f <= 254 \/ pol = Truncate ->
       k = Nat.min 253 (List.length body) /\ firstn k rest = firstn 253 body).

Definition R (pol : copy_policy) (st : pstate) (t : list N) : Prop :=
  good_buf (p_buf st) /\ bytes t /\
  (R_header st t \/
   (R_body pol st t /\ ((0 < p_need st)%nat \/ List.length t = 7%nat))).

Definition matches (pol : copy_policy) (i : item) (m : mbap_message) : Prop :=
  mb_tx m = i_tx i /\ mb_unit m = i_unit i /\
  (~ long i -> mb_data m = body_of i) /\
  (long i -> List.length (mb_data m) = 253%nat) /\
  (pol = Truncate -> mb_data m = firstn 253 (body_of i)) /\
  bytes (mb_data m).

Lemma bytes_app a b : bytes (a ++ b) <-> bytes a /\ bytes b.
Proof. apply Forall_app. Qed.

Lemma bytes_firstn n l : bytes l -> bytes (firstn n l).
Proof. intros H. rewrite <- (firstn_skipn n l) in H. apply bytes_app in H. tauto. Qed.

Lemma bytes_skipn n l : bytes l -> bytes (skipn n l).
Proof. intros H. rewrite <- (firstn_skipn n l) in H. apply bytes_app in H. tauto. Qed.

Lemma copy_spec pol st r :
  good_buf (p_buf st) -> bytes r -> (p_pos st <= 260)%nat ->
  exists buf src,
    copy_from pol st r = Ret {| p_buf := buf; p_pos := p_pos st + List.length src;
                                p_need := p_need st; p_body := p_body st |} /\
    good_buf buf /\ (p_pos st + List.length src <= 260)%nat /\
    buf = firstn (p_pos st) (p_buf st) ++ src ++ skipn (p_pos st + List.length src) (p_buf st) /\
    ((List.length r <= 260 - p_pos st)%nat \/ pol = Truncate -> src = firstn (260 - p_pos st) r).
Proof.
  intros [Hl Hgb] Hbr Hp. unfold copy_from. rewrite Hl.
  set (src := if Nat.leb (List.length r) (260 - p_pos st) then r else _).
  assert (Hs : (List.length src <= 260 - p_pos st)%nat).
  { unfold src. destruct (Nat.leb _ _) eqn:E.
    - apply Nat.leb_le in E. exact E.
    - destruct pol; [cbn; lia|]. rewrite firstn_length. lia. }
  unfold buf_write. rewrite Hl.
  destruct (Nat.leb (p_pos st + List.length src) 260) eqn:E; [|apply Nat.leb_gt in E; lia].
  cbn [obind]. eexists _, src. split; [reflexivity|]. split; [|split; [lia|split; [reflexivity|]]].
  - split; [rewrite !app_length, firstn_length, skipn_length; lia|].
    assert (Hbs : bytes src).
    { unfold src. destruct (Nat.leb _ _); [exact Hbr|]. destruct pol; [constructor|].
      apply bytes_firstn; exact Hbr. }
    apply bytes_app; split; [apply bytes_firstn; exact Hgb|]. apply bytes_app; split; [exact Hbs|].
    apply bytes_skipn; exact Hgb.
  - intros Hc. unfold src. destruct (Nat.leb (List.length r) (260 - p_pos st)) eqn:E2.
    + apply Nat.leb_le in E2. rewrite firstn_all2 by exact E2. reflexivity.
    + apply Nat.leb_gt in E2. destruct Hc as [Hc | -> ]; [lia|reflexivity].
Qed.

(** Copying while reading the header. *)
Lemma copy_header pol st t r :
  good_buf (p_buf st) -> bytes r -> (List.length t + List.length r <= 7)%nat ->
  p_pos st = List.length t -> firstn (p_pos st) (p_buf st) = t ->
  exists buf, copy_from pol st r = Ret {| p_buf := buf; p_pos := List.length (t ++ r);
                                p_need := p_need st; p_body := p_body st |} /\
    good_buf buf /\ firstn (List.length (t ++ r)) buf = t ++ r.
Proof.
  intros Hl Hbr Hlen Hpos Hf.
  destruct (copy_spec pol st r Hl Hbr ltac:(lia)) as (buf & src & -> & Hb & Hp & Hbuf & Hsrc).
  rewrite firstn_all2 in Hsrc by lia. specialize (Hsrc ltac:(left; lia)). subst src.
  exists buf. rewrite Hf in Hbuf. split; [|split; [exact Hb|]].
  - rewrite Hpos, app_length. reflexivity.
  - rewrite Hbuf, app_assoc. rewrite firstn_app, firstn_all, Nat.sub_diag. cbn [firstn].
    apply app_nil_r.
Qed.

Lemma list7 (l : list N) : List.length l = 7%nat ->
  exists a b c d e f g, l = [a; b; c; d; e; f; g].
Proof.
  destruct l as [|a [|b [|c [|d [|e [|f [|g [|]]]]]]]]; try discriminate. repeat eexists.
Qed.

Lemma firstn7 (l t : list N) : List.length t = 7%nat -> firstn 7 l = t -> exists rest, l = t ++ rest.
Proof. intros Ht Hf. exists (skipn 7 l). rewrite <- Hf. symmetry. apply firstn_skipn. Qed.

Ltac split_bytes :=
  repeat match goal with
    | H : bytes (_ :: _) |- _ => apply Forall_cons_iff in H; destruct H
    | H : Forall u8 (_ :: _) |- _ => apply Forall_cons_iff in H; destruct H end.

(** A complete header. *)
Lemma find_body_spec pol buf t pos need :
  good_buf buf -> List.length t = 7%nat -> bytes t -> firstn 7 buf = t -> pos = 7%nat ->
  let st := {| p_buf := buf; p_pos := pos; p_need := need; p_body := false |} in
  (exists i, typed_item i /\ item_bytes i = t /\ i_body i = None /\
       find_body_size st = Ret (mbap_reset st))
  \/ (exists st', find_body_size st = Ret st' /\ R_body pol st' t /\ good_buf (p_buf st')).
Proof.
  intros Hl Ht Hb Hf Hpos st.
  destruct (firstn7 _ _ Ht Hf) as [rest Hbuf].
  destruct (list7 t Ht) as (a & b & c & d & e & f & g & ->).
  split_bytes.
  unfold find_body_size, st. cbn [p_buf p_pos p_need p_body]. 
  assert (Hsk : skipn 4 buf = e :: f :: g :: rest) by (rewrite Hbuf; reflexivity).
  rewrite Hsk. cbn [rd16 read_u16].
  destruct (e * 256 + f =? 0) eqn:E.
  - left. apply N.eqb_eq in E.
    exists {| i_tx := a * 256 + b; i_proto := c * 256 + d; i_unit := g; i_body := None |}.
    split; [|split; [|split; reflexivity]].
    + unfold typed_item, body_of; cbn [i_tx i_proto i_unit i_body]. unfold u8, u16 in *.
      change (size (@nil N)) with 0. repeat split; try lia; try constructor.
    + unfold item_bytes, body_of, announced; cbn [i_tx i_proto i_unit i_body].
      rewrite !be16_split by assumption. unfold be16. cbn [app].
      replace e with 0 by (unfold u8 in *; lia). replace f with 0 by (unfold u8 in *; lia). reflexivity.
  - right. apply N.eqb_neq in E. eexists. split; [reflexivity|].
    cbn [p_buf]. split; [|exact Hl].
    unfold R_body; cbn [p_body p_buf p_pos p_need]. split; [reflexivity|].
    exists a, b, c, d, e, f, g, [], rest, 0%nat. subst pos.
    change (size (@nil N)) with 0.
    split; [reflexivity|]. split; [exact Hbuf|]. repeat split; try lia.
Qed.

(** A complete frame. *)
Lemma send_spec pol st t :
  good_buf (p_buf st) -> bytes t -> R_body pol st t -> p_need st = 0%nat ->
  exists i out, typed_item i /\ item_bytes i = t /\
     send_data st = Ret (mbap_reset st, out) /\
     Forall2 (matches pol) (filter deliverable [i]) out.
Proof.
  intros [Hl Hgb] Hb (Hbody & a & b & c & d & e & f & g & body & rest & k & Ht & Hbuf & HL & Hpos & Hk & Hex) Hn.
  subst t. rewrite Hn in HL. rewrite Hbuf in Hl, Hgb.
  split_bytes.
  set (i := {| i_tx := a * 256 + b; i_proto := c * 256 + d; i_unit := g; i_body := Some body |}).
  unfold send_data. rewrite Hbuf. cbn [rd16 read_u16 rd8 read_u8].
  exists i. eexists. split; [|split; [|split; [reflexivity|]]].
  - unfold typed_item, i, body_of; cbn [i_tx i_proto i_unit i_body]. unfold u8, u16 in *.
    repeat split; try lia; auto.
  - unfold item_bytes, i, body_of, announced; cbn [i_tx i_proto i_unit i_body].
    rewrite !be16_split by assumption.
    replace (1 + size body) with (e * 256 + f) by lia. rewrite be16_split by assumption. reflexivity.
  - cbn [filter deliverable i i_body i_proto]. unfold ModbusProtocolId.
    replace (0 <? e * 256 + f) with true by lia. rewrite andb_true_r.
    destruct (c * 256 + d =? 0); [|constructor].
    constructor; [|constructor].
    assert (Hrest : List.length rest = 253%nat) by (cbn in Hl; lia).
    unfold matches, long, body_of, i; cbn [mb_tx mb_unit mb_data i_tx i_unit i_body].
    unfold size_sub. replace (1 <=? e * 256 + f) with true by lia.
    replace (N.to_nat (e * 256 + f - 1)) with (List.length body) by (unfold size in HL; lia).
    unfold size in *.
    assert (Hcase : e * 256 + f <= 254 \/ pol = Truncate ->
                    firstn (List.length body) rest = firstn 253 body).
    { intros Hc. destruct (Hex Hc) as [Hk2 Hf].
      destruct (Nat.le_ge_cases (List.length body) 253) as [Hle|Hge].
      - replace k with (List.length body) in Hf by lia. exact Hf.
      - replace k with 253%nat in Hf by lia. rewrite <- Hf.
        rewrite !firstn_all2 by lia. reflexivity. }
    repeat split.
    + intros Hs. rewrite Hcase by (left; lia). apply firstn_all2. lia.
    + intros Hs. rewrite firstn_length. lia.
    + intros ->. apply Hcase. auto.
    + apply bytes_firstn. assumption.
Qed.

(** More body bytes. *)
Lemma copy_body pol st t r :
  good_buf (p_buf st) -> bytes t -> bytes r -> R_body pol st t ->
  (List.length r <= p_need st)%nat ->
  let st1 := {| p_buf := p_buf st; p_pos := p_pos st;
                p_need := p_need st - List.length r; p_body := p_body st |} in
  exists st', copy_from pol st1 r = Ret st' /\ R_body pol st' (t ++ r) /\
     good_buf (p_buf st') /\ p_need st' = (p_need st - List.length r)%nat.
Proof.
  intros Hl Hb Hbr (Hbody & a & b & c & d & e & f & g & body & rest & k & Ht & Hbuf & HL & Hpos & Hk & Hex) Hn st1.
  destruct (copy_spec pol st1 r ltac:(exact Hl) Hbr ltac:(cbn; lia)) as (buf & src & E & Hb' & Hp' & Hbuf' & Hsrc).
  cbn [st1 p_buf p_pos p_need p_body] in *.
  eexists. split; [exact E|]. cbn [p_need p_buf]. split; [|split; [exact Hb'|reflexivity]].
  unfold R_body; cbn [p_body p_buf p_pos p_need]. split; [exact Hbody|].
  assert (Hrest : List.length rest = 253%nat) by (destruct Hl as [Hl _]; rewrite Hbuf in Hl; cbn in Hl; lia).
  exists a, b, c, d, e, f, g, (body ++ r),
     (firstn k rest ++ src ++ skipn (k + List.length src) rest), (k + List.length src)%nat.
  rewrite Hpos in *. subst t. split; [reflexivity|].
  split.
  { rewrite Hbuf', Hbuf. replace (7 + k + List.length src)%nat with (7 + (k + List.length src))%nat by lia.
    reflexivity. }
  split; [rewrite size_app; unfold size in *; lia|].
  split; [lia|]. split; [lia|].
  intros Hc. destruct (Hex Hc) as [Hk2 Hf]. clear Hex.
  assert (Hsrc' : src = firstn (253 - k) r).
  { rewrite Hsrc.
    - reflexivity.
    - destruct Hc as [Hc| -> ]; [left|right; reflexivity]. unfold size in HL. lia. }
  clear Hsrc. rewrite Hf. rewrite app_length.
  assert (Hls : List.length src = Nat.min (253 - k) (List.length r)) by (rewrite Hsrc', firstn_length; reflexivity).
  split; [lia|].
  assert (Hlf : List.length (firstn 253 body) = k) by (rewrite firstn_length; lia).
  rewrite app_assoc, firstn_app.
  rewrite firstn_all2 by (rewrite app_length, Hlf; lia).
  rewrite app_length, Hlf, Nat.sub_diag. rewrite firstn_O. rewrite app_nil_r.
  rewrite firstn_app, Hsrc'. f_equal.
  destruct (Nat.le_ge_cases (List.length body) 253) as [Hle|Hge].
  - f_equal. lia.
  - replace (253 - k)%nat with 0%nat by lia. replace (253 - List.length body)%nat with 0%nat by lia. reflexivity.
Qed.

(** ** The loop *)
Definition pending (st : pstate) : nat := if Nat.eqb (p_need st) 0 then 1 else 0.

Lemma R_reset pol st : good_buf (p_buf st) -> R pol (mbap_reset st) [].
Proof.
  intros H. split; [exact H|]. split; [constructor|]. left.
  unfold R_header, mbap_reset; cbn. repeat split; lia.
Qed.

Lemma ends_nil tail : ~ ends_with_empty [] tail.
Proof. intros [_ (is & i & E & _)]. destruct is; discriminate. Qed.

Lemma ends_cons i items tail : ends_with_empty (i :: items) tail ->
  (items = [] /\ tail = [] /\ i_body i = Some []) \/ ends_with_empty items tail.
Proof.
  intros [Ht (is & j & E & Hb)]. destruct is as [|x is]; cbn in E; injection E as E1 E2; subst.
  - left. auto.
  - right. split; [reflexivity|]. exists is, j. auto.
Qed.

Lemma ends_app items items2 tail : ends_with_empty (items ++ items2) tail ->
  (items2 = [] /\ ends_with_empty items tail) \/ ends_with_empty items2 tail.
Proof.
  induction items as [|i items IH]; cbn [app]; [auto|]. intros H.
  destruct (ends_cons _ _ _ H) as [(E & -> & Hb)|H2].
  - apply app_eq_nil in E. destruct E as [-> ->]. left. split; [reflexivity|].
    split; [reflexivity|]. exists [], i. auto.
  - destruct (IH H2) as [[-> H3]|H3]; [left|right; exact H3]. split; [reflexivity|].
    destruct H3 as [Ht (is & j & -> & Hb)]. split; [exact Ht|]. exists (i :: is), j. auto.
Qed.

Lemma loop_spec pol fuel : forall st t data,
  R pol st t -> bytes data -> (2 * List.length data + pending st <= fuel)%nat ->
  exists st' t' items outs,
    parse_loop pol fuel st data = Some (Ret (st', outs)) /\
    Forall typed_item items /\ t ++ data = flat_map item_bytes items ++ t' /\
    R pol st' t' /\ Forall2 (matches pol) (filter deliverable items) outs /\
    ~ ends_with_empty items t'.
Proof.
  induction fuel as [|fuel IH]; intros st t data HR Hd Hfuel.
  { destruct data as [|x data]; [|cbn in Hfuel; lia].
    exists st, t, [], []. rewrite app_nil_r. cbn. auto 10 using ends_nil. }
  destruct data as [|x data0].
  { exists st, t, [], []. rewrite app_nil_r. cbn. auto 10 using ends_nil. }
  set (data := x :: data0) in *.
  set (read := firstn (p_need st) data).
  set (rest := skipn (List.length read) data).
  assert (Hsplit : data = read ++ rest).
  { unfold rest, read. rewrite firstn_length.
    destruct (Nat.le_ge_cases (p_need st) (List.length data)) as [H|H].
    - rewrite Nat.min_l by exact H. symmetry; apply firstn_skipn.
    - rewrite Nat.min_r by exact H. rewrite skipn_all, firstn_all2 by exact H.
      symmetry; apply app_nil_r. }
  assert (Hbd : bytes read /\ bytes rest) by (apply bytes_app; rewrite <- Hsplit; exact Hd).
  destruct Hbd as [Hbr Hbrest].
  assert (Hlr : (List.length read <= p_need st)%nat) by (unfold read; rewrite firstn_length; lia).
  assert (Hld : List.length data = (List.length read + List.length rest)%nat)
    by (rewrite Hsplit at 1; apply app_length).
  assert (Hpos_or : p_need st = 0%nat \/ (1 <= List.length read)%nat).
  { unfold read. rewrite firstn_length. unfold data. cbn [List.length]. lia. }
  assert (Hdne : (1 <= List.length data)%nat) by (unfold data; cbn; lia).
  assert (Hstep : parse_loop pol (S fuel) st data =
    match copy_from pol {| p_buf := p_buf st; p_pos := p_pos st;
                     p_need := p_need st - List.length read; p_body := p_body st |} read with
        | UB => Some UB
        | Ret st =>
            if Nat.eqb (p_need st) 0 then
              if negb (p_body st) then
                match find_body_size st with
                | UB => Some UB
                | Ret st => parse_loop pol fuel st rest
                end
              else
                match send_data st with
                | UB => Some UB
                | Ret (st, out) =>
                    match parse_loop pol fuel st rest with
                    | Some (Ret (st, out')) => Some (Ret (st, out ++ out'))
                    | r => r
                    end
                end
            else parse_loop pol fuel st rest
        end) by reflexivity.
  rewrite Hstep. clear Hstep.
  rewrite Hsplit, app_assoc.
  destruct HR as (Hbuf & Hbt & [HH|[HB Hor]]).
  - (* reading the header *)
    destruct HH as (Hbody & Hlt & Hpos & Hneed & Hf).
    destruct (copy_header pol
       {| p_buf := p_buf st; p_pos := p_pos st; p_need := p_need st - List.length read; p_body := p_body st |}
       t read Hbuf Hbr ltac:(lia) Hpos Hf) as (buf & -> & Hlb & Hfb).
    cbn [p_need p_body]. rewrite Hbody. cbn [negb].
    assert (Hb2 : bytes (t ++ read)) by (apply bytes_app; auto).
    destruct (Nat.eqb (p_need st - List.length read) 0) eqn:E;
      [apply Nat.eqb_eq in E|apply Nat.eqb_neq in E].
    + assert (H7 : List.length (t ++ read) = 7%nat) by (rewrite app_length; lia).
      rewrite H7 in *.
      destruct (find_body_spec pol buf (t ++ read) 7 (p_need st - List.length read)
                  Hlb H7 Hb2 Hfb eq_refl)
        as [(i & Hti & Hib & Hnone & ->)|(st' & -> & HB' & Hlb')].
      * pose proof (R_reset pol {| p_buf := buf; p_pos := 7; p_need := p_need st - List.length read; p_body := false |} Hlb) as HR0.
        destruct (IH _ [] rest HR0 Hbrest) as (st2 & t2 & items & outs & -> & Hty & Happ & HR2 & Hm & Hends).
        { unfold pending; cbn. lia. }
        exists st2, t2, (i :: items), outs. split; [reflexivity|].
        split; [constructor; assumption|]. split.
        { cbn [flat_map]. cbn [app] in Happ. rewrite Hib, Happ, app_assoc. reflexivity. }
        split; [exact HR2|]. cbn [filter]. unfold deliverable at 1. rewrite Hnone. split; [exact Hm|].
        intros He. destruct (ends_cons _ _ _ He) as [(_ & _ & Hbd)|He2]; [congruence|contradiction].
      * destruct (IH st' (t ++ read) rest) as (st2 & t2 & items & outs & -> & Hty & Happ & HR2 & Hm & Hends).
        { split; [exact Hlb'|]. split; [exact Hb2|]. right. split; [exact HB'|]. right. exact H7. }
        { exact Hbrest. }
        { unfold pending. destruct (Nat.eqb (p_need st') 0); lia. }
        exists st2, t2, items, outs. auto 10.
    + match goal with |- context [parse_loop pol fuel ?s rest] => set (st1 := s) end.
      destruct (IH st1 (t ++ read) rest) as (st2 & t2 & items & outs & -> & Hty & Happ & HR2 & Hm & Hends).
      { split; [exact Hlb|]. split; [exact Hb2|]. left. unfold R_header, st1. cbn [p_body p_pos p_need p_buf].
        rewrite app_length in *. repeat split; try lia. exact Hfb. }
      { exact Hbrest. }
      { unfold pending, st1. cbn [p_need]. rewrite (proj2 (Nat.eqb_neq _ _) E). lia. }
      exists st2, t2, items, outs. auto 10.
  - (* reading the body *)
    destruct (copy_body pol st t read Hbuf Hbt Hbr HB Hlr) as (st' & -> & HB' & Hlb & Hneed).
    assert (Hbody : p_body st' = true) by apply HB'. rewrite Hneed, Hbody. cbn [negb].
    assert (Hb2 : bytes (t ++ read)) by (apply bytes_app; auto).
    destruct (Nat.eqb (p_need st - List.length read) 0) eqn:E;
      [apply Nat.eqb_eq in E|apply Nat.eqb_neq in E].
    + destruct (send_spec pol st' (t ++ read) Hlb Hb2 HB' ltac:(lia)) as (i & out & Hti & Hib & -> & Hmi).
      destruct (IH _ [] rest (R_reset pol st' Hlb) Hbrest) as (st2 & t2 & items & outs & -> & Hty & Happ & HR2 & Hm & Hends).
      { unfold pending at 1; cbn [mbap_reset p_need MaxMbapHeaderSize Nat.eqb].
        unfold pending in Hfuel. destruct (Nat.eqb (p_need st) 0) eqn:E0; [lia|].
        apply Nat.eqb_neq in E0. lia. }
      exists st2, t2, (i :: items), (out ++ outs). split; [reflexivity|].
      split; [constructor; assumption|]. split.
      { cbn [flat_map]. cbn [app] in Happ. rewrite Hib, Happ, app_assoc. reflexivity. }
      split; [exact HR2|]. change (i :: items) with ([i] ++ items). rewrite filter_app.
      split; [apply Forall2_app; assumption|].
      intros He. destruct (ends_cons _ _ _ He) as [(-> & -> & Hbd)|He2]; [|contradiction].
      cbn [flat_map app] in Happ.
      assert (Hsz := item_bytes_size i). unfold body_of in Hsz. rewrite Hbd, Hib in Hsz.
      change (size (@nil N)) with 0 in Hsz. unfold size in Hsz. rewrite app_length in Hsz.
      rewrite Happ in Hld. cbn [List.length] in Hld.
      destruct HB as (_ & a & b & c & d & e & f & g & body & rst & k & Ht & _).
      rewrite Ht in Hsz. cbn [List.length] in Hsz. lia.
    + destruct (IH st' (t ++ read) rest) as (st2 & t2 & items & outs & -> & Hty & Happ & HR2 & Hm & Hends).
      { split; [exact Hlb|]. split; [exact Hb2|]. right. split; [exact HB'|]. left. lia. }
      { exact Hbrest. }
      { unfold pending. rewrite Hneed, (proj2 (Nat.eqb_neq _ _) E). lia. }
      exists st2, t2, items, outs. auto 10.
Qed.

Lemma parse_spec pol st t data :
  R pol st t -> bytes data ->
  exists st' t' items outs,
    mbap_parse pol st data = Ret (st', outs) /\
    Forall typed_item items /\ t ++ data = flat_map item_bytes items ++ t' /\
    R pol st' t' /\ Forall2 (matches pol) (filter deliverable items) outs /\
    ~ ends_with_empty items t'.
Proof.
  intros HR Hb. unfold mbap_parse.
  destruct (loop_spec pol (2 * List.length data + 2) st t data HR Hb)
    as (st' & t' & items & outs & -> & H).
  { unfold pending. destruct (Nat.eqb _ _); lia. }
  exists st', t', items, outs. auto.
Qed.

(** ** Runs *)
(** Safety of any run, with resets. *)
Lemma run_safe pol ops : forall st t,
  R pol st t -> Forall op_bytes ops ->
  exists st' t' outs, mbap_run pol st ops = Ret (st', outs) /\ R pol st' t' /\
    Forall (fun m => (List.length (mb_data m) <= 253)%nat /\ bytes (mb_data m)) outs.
Proof.
  induction ops as [|o ops IH]; intros st t HR Hops; cbn [mbap_run].
  { exists st, t, []. auto. }
  apply Forall_cons_iff in Hops. destruct Hops as [Ho Hops]. destruct o as [d|]; cbn in Ho.
  - destruct (parse_spec pol st t d HR Ho) as (st1 & t1 & items & outs & -> & _ & _ & HR1 & Hm & _).
    cbn [obind]. destruct (IH st1 t1 HR1 Hops) as (st2 & t2 & outs2 & -> & HR2 & H3).
    cbn [obind]. exists st2, t2, (outs ++ outs2). split; [reflexivity|]. split; [exact HR2|].
    apply Forall_app; split; [|exact H3].
      clear -Hm. induction Hm as [|i m is ms Him _ IHm]; [constructor|]. constructor; [|exact IHm].
      destruct Him as (_ & _ & H1 & H2 & _ & Hbm). unfold long, size in *. split; [|exact Hbm].
      destruct (Nat.le_gt_cases (List.length (body_of i)) 253) as [Hle|Hgt].
      * rewrite H1 by lia. exact Hle.
      * rewrite H2 by lia. lia.
  - destruct HR as [Hl _]. exact (IH _ [] (R_reset pol st Hl) Hops).
Qed.

Lemma run_chunks pol chunks : forall st t,
  R pol st t -> Forall bytes chunks ->
  exists st' t' items outs, mbap_run pol st (map Chunk chunks) = Ret (st', outs) /\
    Forall typed_item items /\ t ++ List.concat chunks = flat_map item_bytes items ++ t' /\
    R pol st' t' /\ Forall2 (matches pol) (filter deliverable items) outs /\
    ~ ends_with_empty items t'.
Proof.
  induction chunks as [|d ds IH]; intros st t HR Hb; cbn [map mbap_run List.concat].
  { exists st, t, [], []. cbn. rewrite app_nil_r. auto 10 using ends_nil. }
  apply Forall_cons_iff in Hb. destruct Hb as [Hd Hds].
  destruct (parse_spec pol st t d HR Hd) as (st1 & t1 & items & outs & -> & Hty & E & HR1 & Hm & Hends).
  cbn [obind]. destruct (IH st1 t1 HR1 Hds) as (st2 & t2 & items2 & outs2 & -> & Hty2 & E2 & HR2 & Hm2 & Hends2).
  cbn [obind]. exists st2, t2, (items ++ items2), (outs ++ outs2).
  split; [reflexivity|]. split; [apply Forall_app; auto|]. split.
  - rewrite app_assoc, E, <- app_assoc, E2, flat_map_app, app_assoc. reflexivity.
  - split; [exact HR2|]. rewrite filter_app. split; [apply Forall2_app; assumption|].
    intros He. destruct (ends_app _ _ _ He) as [[-> He1]|He2]; [|contradiction].
    apply Hends. destruct He1 as [-> He1]. cbn in E2. apply app_eq_nil in E2.
    destruct E2 as [-> _]. split; [reflexivity|exact He1].
Qed.

Lemma R_new pol buf : good_buf buf -> R pol (mbap_new buf) [].
Proof. intros H. apply R_reset. exact H. Qed.

Lemma R_tail pol st t : R pol st t ->
  incomplete t \/ exists i, typed_item i /\ t = item_bytes i /\ i_body i = Some [].
Proof.
  intros (Hl & Hb & [HH|[HB Hor]]).
  - left. left. destruct HH as (_ & H & _). unfold size. lia.
  - destruct HB as (Hbody & a & b & c & d & e & f & g & body & rest & k & Ht & Hbuf & HL & Hpos & Hk & Hex).
    subst t. destruct (Nat.eq_dec (p_need st) 0) as [Hz|Hz].
    + right. destruct Hor as [Hor|Hor]; [lia|].
      assert (body = []) by (destruct body; [reflexivity|cbn in Hor; lia]). subst body.
      change (size (@nil N)) with 0 in HL. split_bytes.
      exists {| i_tx := a * 256 + b; i_proto := c * 256 + d; i_unit := g; i_body := Some [] |}.
      unfold u8, u16 in *. split; [|split; [|reflexivity]].
      * unfold typed_item, body_of; cbn [i_tx i_proto i_unit i_body]. unfold u8, u16.
        change (size (@nil N)) with 0. repeat split; try lia; try constructor.
      * unfold item_bytes, body_of, announced; cbn [i_tx i_proto i_unit i_body].
        rewrite !be16_split by (unfold u8; assumption).
        change (1 + size (@nil N)) with 1. unfold be16. cbn [app].
        replace e with 0 by lia. replace f with 1 by lia. reflexivity.
    + left. right. exists (e * 256 + f). split; [do 7 eexists; split; reflexivity|].
      rewrite !size_cons. lia.
Qed.

Lemma settled_incomplete items tail :
  incomplete tail -> Forall typed_item items ->
  forall items' t', Forall typed_item items' ->
  flat_map item_bytes items ++ tail = flat_map item_bytes items' ++ t' ->
  (incomplete t' \/ exists i, typed_item i /\ t' = item_bytes i /\ i_body i = Some []) ->
  (exists i, t' = item_bytes i /\ i_body i = Some [] /\ items = items' ++ [i] /\ tail = [])
  \/ (items' = items /\ t' = tail).
Proof.
  intros Hi Hty items' t' Hty' E [Ht|(i & Hti & -> & Hib)].
  - right. destruct (framed_unique (flat_map item_bytes items ++ tail) items tail items' t') as [-> ->].
    + split; [exact Hty|]. auto.
    + split; [exact Hty'|]. auto.
    + auto.
  - left. exists i. split; [reflexivity|]. split; [exact Hib|].
    assert (H := framed_unique (flat_map item_bytes items ++ tail) items tail (items' ++ [i]) []).
    destruct H as [-> ->]; [|  |auto].
    + split; [exact Hty|]. auto.
    + split; [apply Forall_app; auto|]. split; [|left; reflexivity].
      rewrite E, flat_map_app. cbn [flat_map]. rewrite !app_nil_r. reflexivity.
Qed.

(** The general delivery theorem: any stream, any chunking, any buffer content,
    either copy policy. *)
Lemma delivery pol st chunks items tail :
  R pol st [] -> Forall bytes chunks ->
  framed (List.concat chunks) items tail ->
  exists st' outs, mbap_run pol st (map Chunk chunks) = Ret (st', outs) /\
    ((Forall2 (matches pol) (filter deliverable (settled items tail)) outs /\ ends_with_empty items tail) \/
     (Forall2 (matches pol) (filter deliverable items) outs /\ settled items tail = items /\
      ~ ends_with_empty items tail)).
Proof.
  intros HR Hb (Hty & E & Hinc).
  destruct (run_chunks pol chunks st [] HR Hb) as (st' & t' & items' & outs & -> & Hty' & E' & HR' & Hm & Hends).
  cbn [app] in E'. rewrite E in E'. exists st', outs. split; [reflexivity|].
  destruct (settled_incomplete items tail Hinc Hty items' t' Hty' E' (R_tail _ _ _ HR'))
    as [(i & -> & Hib & -> & ->)|[-> ->]].
  - left. unfold settled, ends_with_empty. rewrite rev_app_distr. cbn [rev app]. rewrite Hib, rev_involutive.
    split; [exact Hm|]. split; [reflexivity|]. exists items', i. auto.
  - right. split; [exact Hm|].
    pose proof Hends as Hne.
    split; [|exact Hne].
    unfold settled. destruct tail as [|x tail]; [|reflexivity].
    destruct (rev items) as [|i is] eqn:Er; [reflexivity|].
    destruct (i_body i) as [[|y ys]|] eqn:Eb; try reflexivity.
    exfalso. apply Hne. split; [reflexivity|]. exists (rev is), i. split; [|exact Eb].
    rewrite <- (rev_involutive items), Er. reflexivity.
Qed.
