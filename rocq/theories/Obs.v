(** What can be observed of a state of the model, and the same observations on
    the abstract machine. *)
From Coq Require Import List NArith ZArith Arith Bool Lia.
From Coq Require Import ZifyBool ZifyNat ZifyN.
From Verif Require Import Base Lib Buffer BufferSpec BufferProofs Repeat Devices DevSpec DevProofs
     Modifiers Hook KeymapData Asdf KeySpec KeyRef.
Import ListNotations.

(** Accepted (debounced) state of a key. *)
Definition down (s : kb) (r c : nat) : bool := N.testbit (nth r (k_stable s) 0%N) (N.of_nat c).

(** Contents of a buffer, oldest first. *)
Definition waiting (h : Z) (b : bufs) : list N :=
  match nth_error (buffers b) (Z.to_nat h) with
  | Some d => map (fun k => nth (Z.to_nat (b_buf d + (b_tail d + Z.of_nat k) mod b_size d)) (pool b) 0%N)
                  (seq 0 (Z.to_nat (b_count d)))
  | None => []
  end.
Definition key_queue (s : kb) : list N := waiting (k_hkey s) (k_buf s).
Definition msg_queue (s : kb) : list N := waiting (k_hmsg s) (k_buf s).

(** Events so far, oldest first, and the codes sent to the host. *)
Definition events (s : kb) : list event := rev (log (k_dev s)).
Definition sends (l : list event) : list N :=
  flat_map (fun e => match e with EvSend c => [c] | _ => [] end) l.
Definition sent (s : kb) : list N := sends (events s).

(** CTRL / SHIFT / CAPS in force. *)
Definition ctrl_on (s : kb) : bool := negb (m_ctrl (k_mod s) =? 0)%N.
Definition shift_on (s : kb) : bool := negb (m_shift (k_mod s) =? 0)%N.
Definition caps_on (s : kb) : bool := negb (m_caps (k_mod s) =? 0)%N.

Lemma sends_app : forall l1 l2, sends (l1 ++ l2) = sends l1 ++ sends l2.
Proof. intros. unfold sends. apply flat_map_app. Qed.

Lemma down_ok : forall a s r c, Rel a s -> r < 16 -> c < 8 -> down s r c = a_dn a r c.
Proof.
  intros a s r c H Hr Hc. unfold down.
  assert (HL : r < length (k_stable s)) by (rewrite (rl_stlen _ _ H); auto).
  destruct (nth_error_ex _ _ _ HL) as [b E].
  rewrite (nth_error_nth _ _ _ E). apply (rl_stable _ _ H _ _ E). auto.
Qed.

Lemma map_nth_seq : forall (l : list N) f, (forall k, k < length l -> f k = nth k l 0%N) ->
  map f (seq 0 (length l)) = l.
Proof.
  intros l f H. apply nth_ext with (d := 0%N) (d' := 0%N); [rewrite map_length, seq_length; auto|].
  intros n Hn. rewrite map_length, seq_length in Hn.
  rewrite (nth_indep _ 0%N (f 0)) by (rewrite map_length, seq_length; auto).
  rewrite map_nth, seq_nth by auto. apply H; auto.
Qed.

Lemma waiting_ok : forall l b h f, R l b -> nth_error l h = Some f -> waiting (Z.of_nat h) b = f_items f.
Proof.
  intros l b h f (A1&A2&A3&A4&A5&A6&A7) E. unfold waiting. rewrite Nat2Z.id.
  destruct (bufsrep_nth _ _ _ _ _ _ A7 E) as [d [D1 (B1&B2&B3&B4&B5&B6&B7)]].
  rewrite D1, B4, Nat2Z.id. apply map_nth_seq. intros k Hk.
  specialize (B7 k Hk). rewrite <- B2, <- B1 in B7.
  destruct (nth_error_ex _ _ _ Hk) as [x X]. rewrite X in B7.
  rewrite (nth_error_nth _ _ _ B7). symmetry. apply nth_error_nth; auto.
Qed.

Lemma key_queue_ok : forall a s, Rel a s -> key_queue s = a_qk a.
Proof.
  intros a s H. unfold key_queue. rewrite (rl_hkey _ _ H).
  apply (waiting_ok _ _ 0 _ (rl_buf _ _ H) eq_refl).
Qed.
Lemma msg_queue_ok : forall a s, Rel a s -> msg_queue s = a_qm a.
Proof.
  intros a s H. unfold msg_queue. rewrite (rl_hmsg _ _ H).
  apply (waiting_ok _ _ 1 _ (rl_buf _ _ H) eq_refl).
Qed.
Lemma events_ok : forall a s, Rel a s -> events s = rev (a_log a).
Proof. intros a s H. unfold events. rewrite (rl_log _ _ H). auto. Qed.
Lemma sent_ok : forall a s, Rel a s -> sent s = sends (rev (a_log a)).
Proof. intros a s H. unfold sent. rewrite (events_ok _ _ H). auto. Qed.

(** Reachable states have an abstract counterpart. *)
Lemma reach : forall rds s, run rds = Ok s -> exists a, arun rds = Some a /\ Rel a s.
Proof.
  intros rds s H. apply run_ok in H. destruct H as [a [H1 [_ H2]]]. eauto.
Qed.

(** Induction over abstract runs. *)
Lemma aticks_app : forall r1 r2 a, aticks (r1 ++ r2) a = obind (aticks r1 a) (aticks r2).
Proof.
  induction r1 as [|rd r1 IH]; cbn; intros; auto. destruct (atick rd a); cbn; auto.
Qed.
Lemma ticks_app : forall r1 r2 s, ticks (r1 ++ r2) s = bind (ticks r1 s) (ticks r2).
Proof.
  induction r1 as [|rd r1 IH]; cbn; intros; auto. destruct (tick rd s); cbn; auto.
Qed.
Lemma run_app : forall r1 r2, run (r1 ++ r2) = bind (run r1) (ticks r2).
Proof. intros. unfold run. destruct boot; cbn; auto. apply ticks_app. Qed.

(** ** What one key step can be *)
Definition code_now (a : akb) (r c : nat) : N := code_at (a_cur a) (map_now (a_mod a)) r c.
Definition accept (r c : nat) (now : bool) (a : akb) : akb :=
  put_dn (set2 (a_dn a) r c now) (put_ct (set2 (a_ct a) r c 10%N) a).

Inductive kstep (rd : nat -> N) (r c : nat) (a : akb) : akb -> Prop :=
| KIdle : reading rd r c = false -> a_dn a r c = false -> kstep rd r c a a
| KCount : reading rd r c <> a_dn a r c -> (a_ct a r c <> 1)%N ->
    kstep rd r c a (put_ct (set2 (a_ct a) r c (a_ct a r c - 1)%N) a)
| KHeld : (a_cur a < 4)%N -> reading rd r c = true -> a_dn a r c = true ->
    kstep rd r c a (aheld (code_now a r c) a)
| KPress : (a_cur a < 4)%N -> reading rd r c = true -> a_dn a r c = false -> (a_ct a r c = 1)%N ->
    kstep rd r c a (apress (code_now a r c) (accept r c true a))
| KRelease : (a_cur a < 4)%N -> reading rd r c = false -> a_dn a r c = true -> (a_ct a r c = 1)%N ->
    kstep rd r c a (arelease (code_now a r c) (accept r c false a)).

Lemma key_step_cases : forall rd r c a a', key_step rd r c a = Some a' -> kstep rd r c a a'.
Proof.
  intros rd r c a a' H. unfold key_step, acode in H.
  destruct (Bool.eqb (reading rd r c) (a_dn a r c)) eqn:E.
  - apply eqb_prop in E. destruct (reading rd r c) eqn:RD.
    + destruct (N.ltb_spec (a_cur a) 4); cbn in H; inv H. apply KHeld; auto.
    + inv H. apply KIdle; auto.
  - apply eqb_false_iff in E. destruct (N.eqb_spec (a_ct a r c) 1).
    + cbn zeta in H. cbn [a_cur a_mod put_dn put_ct] in H.
      destruct (N.ltb_spec (a_cur a) 4); cbn [obind] in H; [|discriminate].
      destruct (reading rd r c) eqn:RD; inv H.
      * apply KPress; auto. destruct (a_dn a r c); auto; congruence.
      * apply KRelease; auto. destruct (a_dn a r c); auto; congruence.
    + inv H. apply KCount; auto.
Qed.

(** A property preserved by sending and by key steps holds in every reachable
    state. *)
Lemma ainvariant_from : forall (P : (nat -> N) -> Prop) (Inv : akb -> Prop),
  (forall a, Inv a -> Inv (asend a)) ->
  (forall rd r c a a', P rd -> Inv a -> r < 9 \/ (4 <= a_cur a)%N -> r < 16 -> c < 8 ->
     kstep rd r c a a' -> Inv a') ->
  forall rds x a, Inv x -> (a_cur x < 6)%N -> Forall P rds -> aticks rds x = Some a -> Inv a.
Proof.
  intros P Inv HS HK rds.
  assert (KS : forall rd ps x y, P rd -> Inv x -> (a_cur x < 6)%N ->
     Forall (fun p => fst p < 16 /\ snd p < 8) ps ->
     Forall (fun p => fst p < 9) ps \/ (4 <= a_cur x)%N ->
                 keys_step rd ps x = Some y -> Inv y).
  { induction ps as [|[r c] ps IH]; cbn; intros x y HP HI HC HF HR E.
    - inv E; auto.
    - inv HF. destruct (key_step rd r c x) as [x1|] eqn:EK; [|discriminate]. cbn in E, H2.
      destruct (key_step_rows _ _ _ _ _ EK HC) as [C1 C2].
      apply (IH x1 y); auto.
      + apply (HK rd r c x x1); auto; try tauto.
        * destruct HR as [HR|HR]; auto. inv HR. auto.
        * apply key_step_cases; auto.
      + destruct HR as [HR|HR]; [inv HR; auto|]. right. rewrite C2; auto. }
  assert (GR : forall r n, r + n <= 16 -> Forall (fun p => fst p < 16 /\ snd p < 8) (grid r n)).
  { intros r n Hn. apply Forall_forall. intros [x y] Hp. unfold grid in Hp. apply in_prod_iff in Hp.
    rewrite !in_seq in Hp. cbn. lia. }
  assert (GR9 : Forall (fun p => fst p < 9) (grid 0 9)).
  { apply Forall_forall. intros [x y] Hp. unfold grid in Hp. apply in_prod_iff in Hp.
    rewrite !in_seq in Hp. cbn. lia. }
  assert (SC : forall x, a_cur (asend x) = a_cur x).
  { intros x. unfold asend. destruct (a_qm x); auto. destruct (a_qk x); auto.
    destruct (n <? 0xA0)%N; auto. }
  induction rds as [|rd rds IH]; intros x a HX HC HF E.
  - cbn in E. inv E. auto.
  - cbn [aticks] in E. inv HF. unfold atick, ascan in E.
    destruct (keys_step rd (grid 0 9) (asend x)) as [y|] eqn:E1; cbn [obind] in E; [|discriminate].
    destruct (keys_step rd (grid 9 (nrows (a_cur y) - 9)) y) as [z|] eqn:E2; cbn [obind] in E; [|discriminate].
    destruct (keys_cur_high _ _ _ _ E1 ltac:(rewrite SC; auto)) as [CY _].
    destruct (keys_cur_high _ _ _ _ E2 CY) as [CZ _].
    assert (Inv y) by (apply (KS rd (grid 0 9) (asend x) y); auto; try (rewrite SC; auto); apply GR; lia).
    apply (IH z); auto.
    pose proof (rows_ge _ CY) as NR.
    apply (KS rd (grid 9 (nrows (a_cur y) - 9)) y z); auto; [apply GR; lia|].
    destruct (N.leb_spec 4 (a_cur y)); auto. left. rewrite rows_9 by auto. constructor.
Qed.

Lemma ainvariant : forall (P : (nat -> N) -> Prop) (Inv : akb -> Prop),
  Inv aboot ->
  (forall a, Inv a -> Inv (asend a)) ->
  (forall rd r c a a', P rd -> Inv a -> r < 9 \/ (4 <= a_cur a)%N -> r < 16 -> c < 8 ->
     kstep rd r c a a' -> Inv a') ->
  forall rds a, Forall P rds -> arun rds = Some a -> Inv a.
Proof.
  intros P Inv H0 HS HK rds a. unfold arun. apply ainvariant_from; auto. cbn. lia.
Qed.

(** The same for properties that do not mention the debounce counters. *)
Lemma ainv_from : forall (P : (nat -> N) -> Prop) (Inv : akb -> Prop),
  (forall a, Inv a -> Inv (asend a)) ->
  (forall x a, Inv a -> Inv (put_ct x a)) ->
  (forall rd r c a, P rd -> Inv a -> r < 9 -> c < 8 -> (a_cur a < 4)%N ->
     reading rd r c = true -> a_dn a r c = true -> Inv (aheld (code_now a r c) a)) ->
  (forall rd r c a, P rd -> Inv a -> r < 9 -> c < 8 -> (a_cur a < 4)%N ->
     reading rd r c = true -> a_dn a r c = false -> Inv (apress (code_now a r c) (accept r c true a))) ->
  (forall rd r c a, P rd -> Inv a -> r < 9 -> c < 8 -> (a_cur a < 4)%N ->
     reading rd r c = false -> a_dn a r c = true -> Inv (arelease (code_now a r c) (accept r c false a))) ->
  forall rds x a, Inv x -> (a_cur x < 6)%N -> Forall P rds -> aticks rds x = Some a -> Inv a.
Proof.
  intros P Inv HS HC HH HP HR. apply ainvariant_from; auto.
  intros rd r c a a' Hrd HI Hr Hr' Hc K. destruct K; auto;
    (assert (r < 9) by (destruct Hr; [auto | lia])); eauto.
Qed.
Lemma ainv : forall (P : (nat -> N) -> Prop) (Inv : akb -> Prop),
  Inv aboot ->
  (forall a, Inv a -> Inv (asend a)) ->
  (forall x a, Inv a -> Inv (put_ct x a)) ->
  (forall rd r c a, P rd -> Inv a -> r < 9 -> c < 8 -> (a_cur a < 4)%N ->
     reading rd r c = true -> a_dn a r c = true -> Inv (aheld (code_now a r c) a)) ->
  (forall rd r c a, P rd -> Inv a -> r < 9 -> c < 8 -> (a_cur a < 4)%N ->
     reading rd r c = true -> a_dn a r c = false -> Inv (apress (code_now a r c) (accept r c true a))) ->
  (forall rd r c a, P rd -> Inv a -> r < 9 -> c < 8 -> (a_cur a < 4)%N ->
     reading rd r c = false -> a_dn a r c = true -> Inv (arelease (code_now a r c) (accept r c false a))) ->
  forall rds a, Forall P rds -> arun rds = Some a -> Inv a.
Proof.
  intros P Inv H0 HS HC HH HP HR. apply ainvariant; auto.
  intros rd r c a a' Hrd HI Hr Hr' Hc K. destruct K; auto;
    (assert (r < 9) by (destruct Hr; [auto | lia])); eauto.
Qed.

Lemma True_all : forall (rds : list (nat -> N)), Forall (fun _ => True) rds.
Proof. intros. apply Forall_forall. auto. Qed.

(** Checking a property of all keycodes of keyboards 0-3. *)
Definition all_codes (p : N -> nat -> nat -> nat -> N -> bool) : bool :=
  forallb (fun k => forallb (fun m => forallb (fun rc =>
    p k m (fst rc) (snd rc) (code_at k m (fst rc) (snd rc))) (grid 0 9)) (seq 0 4)) [0; 1; 2; 3]%N.

Lemma codes_check : forall p, all_codes p = true ->
  forall k m r c, (k < 4)%N -> m < 4 -> r < 9 -> c < 8 -> p k m r c (code_at k m r c) = true.
Proof.
  intros p H k m r c Hk Hm Hr Hc. unfold all_codes in H. rewrite forallb_forall in H.
  assert (IK : In k [0; 1; 2; 3]%N) by (cbn; lia). specialize (H k IK).
  rewrite forallb_forall in H. specialize (H m). rewrite in_seq in H. specialize (H ltac:(lia)).
  rewrite forallb_forall in H. specialize (H (r, c)). apply H.
  unfold grid. apply in_prod_iff. rewrite !in_seq. lia.
Qed.

Lemma code_now_check : forall p, all_codes p = true ->
  forall a r c, (a_cur a < 4)%N -> r < 9 -> c < 8 ->
  p (a_cur a) (map_now (a_mod a)) r c (code_now a r c) = true.
Proof. intros. apply codes_check; auto. apply map_now_lt. Qed.

(** Readings in which exactly the keys of [l] are closed, for examples and
    witnesses. *)
Definition matrix (l : list (nat * nat)) : nat -> N :=
  fun r => fold_right (fun p acc => if fst p =? r then N.setbit acc (N.of_nat (snd p)) else acc) 0%N l.
Definition hold (n : nat) (l : list (nat * nat)) : list (nat -> N) := repeat (matrix l) n.

(** Observations on the outcome of a run, for examples. *)
Definition obs {A} (f : kb -> A) (o : outcome kb) : option A :=
  match o with Ok s => Some (f s) | Bad _ => None end.
Lemma obs_some : forall A (f : kb -> A) o x, obs f o = Some x -> exists s, o = Ok s /\ f s = x.
Proof. intros A f [s|u] x H; cbn in H; [|discriminate]. exists s. split; auto. congruence. Qed.

(** If moreover the invariant confines the selection to keyboards 0-3, the run
    never fails. *)
Lemma atotal_from : forall (P : (nat -> N) -> Prop) (Inv : akb -> Prop),
  (forall a, Inv a -> (a_cur a < 4)%N) ->
  (forall a, Inv a -> Inv (asend a)) ->
  (forall x a, Inv a -> Inv (put_ct x a)) ->
  (forall rd r c a, P rd -> Inv a -> r < 9 -> c < 8 -> (a_cur a < 4)%N ->
     reading rd r c = true -> a_dn a r c = true -> Inv (aheld (code_now a r c) a)) ->
  (forall rd r c a, P rd -> Inv a -> r < 9 -> c < 8 -> (a_cur a < 4)%N ->
     reading rd r c = true -> a_dn a r c = false -> Inv (apress (code_now a r c) (accept r c true a))) ->
  (forall rd r c a, P rd -> Inv a -> r < 9 -> c < 8 -> (a_cur a < 4)%N ->
     reading rd r c = false -> a_dn a r c = true -> Inv (arelease (code_now a r c) (accept r c false a))) ->
  forall rds x, Inv x -> Forall P rds -> exists a, aticks rds x = Some a /\ Inv a.
Proof.
  intros P Inv HL HS HC HH HP HR rds.
  assert (K1 : forall rd r c x, P rd -> Inv x -> r < 9 -> c < 8 -> exists y, key_step rd r c x = Some y /\ Inv y).
  { intros rd r c x Hrd HI Hr Hc. pose proof (HL _ HI) as Hk.
    assert (E : exists y, key_step rd r c x = Some y).
    { unfold key_step, acode. cbn [a_cur put_dn put_ct]. replace (a_cur x <? 4)%N with true by lia. cbn [obind].
      destruct (Bool.eqb _ _); [destruct (reading rd r c)|destruct (_ =? 1)%N]; eauto. }
    destruct E as [y E]. exists y. split; auto. destruct (key_step_cases _ _ _ _ _ E); eauto. }
  assert (KS : forall rd ps x, P rd -> Inv x -> Forall (fun p => fst p < 9 /\ snd p < 8) ps ->
    exists y, keys_step rd ps x = Some y /\ Inv y).
  { induction ps as [|[r c] ps IH]; intros x Hrd HI HF; [exists x; auto|].
    inv HF. cbn [fst snd] in H2. destruct (K1 rd r c x Hrd HI) as [y [E HY]]; try tauto.
    cbn [keys_step]. rewrite E. cbn [obind]. apply IH; auto. }
  assert (GR9 : Forall (fun p => fst p < 9 /\ snd p < 8) (grid 0 9)).
  { apply Forall_forall. intros [x y] Hp. unfold grid in Hp. apply in_prod_iff in Hp.
    rewrite !in_seq in Hp. cbn. lia. }
  induction rds as [|rd rds IH]; intros x HX HF; [exists x; auto|].
  inv HF. cbn [aticks]. unfold atick, ascan.
  destruct (KS rd (grid 0 9) (asend x)) as [y [E HY]]; auto. rewrite E. cbn [obind].
  rewrite rows_9 by (apply HL; auto). change (grid 9 (9 - 9)) with (@nil (nat * nat)). cbn [keys_step obind].
  apply IH; auto.
Qed.

Lemma atotal : forall (P : (nat -> N) -> Prop) (Inv : akb -> Prop),
  (forall a, Inv a -> (a_cur a < 4)%N) ->
  Inv aboot ->
  (forall a, Inv a -> Inv (asend a)) ->
  (forall x a, Inv a -> Inv (put_ct x a)) ->
  (forall rd r c a, P rd -> Inv a -> r < 9 -> c < 8 -> (a_cur a < 4)%N ->
     reading rd r c = true -> a_dn a r c = true -> Inv (aheld (code_now a r c) a)) ->
  (forall rd r c a, P rd -> Inv a -> r < 9 -> c < 8 -> (a_cur a < 4)%N ->
     reading rd r c = true -> a_dn a r c = false -> Inv (apress (code_now a r c) (accept r c true a))) ->
  (forall rd r c a, P rd -> Inv a -> r < 9 -> c < 8 -> (a_cur a < 4)%N ->
     reading rd r c = false -> a_dn a r c = true -> Inv (arelease (code_now a r c) (accept r c false a))) ->
  forall rds, Forall P rds -> exists a, arun rds = Some a /\ Inv a.
Proof. intros. apply (atotal_from P Inv); auto. Qed.

(** ** Histories of single keys *)

(** Debouncer of one key: accepted state and differing scans still needed. *)
Definition db (x : bool * N) (b : bool) : bool * N :=
  if Bool.eqb b (fst x) then x else if (snd x =? 1)%N then (b, 10%N) else (fst x, (snd x - 1)%N).

Lemma key_step_db : forall rd r c a a', key_step rd r c a = Some a' ->
  (a_dn a' r c, a_ct a' r c) = db (a_dn a r c, a_ct a r c) (reading rd r c).
Proof.
  intros rd r c a a' E. unfold db. cbn [fst snd].
  destruct (key_step_cases _ _ _ _ _ E) as [H1 H2|H1 H2|H0 H1 H2|H0 H1 H2 H3|H0 H1 H2 H3].
  - rewrite H1, H2. reflexivity.
  - assert (X : Bool.eqb (reading rd r c) (a_dn a r c) = false) by (apply eqb_false_iff; auto).
    rewrite X. replace (a_ct a r c =? 1)%N with false by lia. cbn. unfold set2. rewrite !Nat.eqb_refl. auto.
  - destruct (aheld_dn (code_now a r c) a) as [-> ->]. rewrite H1, H2. reflexivity.
  - destruct (apress_dn (code_now a r c) (accept r c true a)) as [-> ->].
    rewrite H1, H2, H3. cbn. unfold set2. rewrite !Nat.eqb_refl. auto.
  - destruct (arelease_dn (code_now a r c) (accept r c false a)) as [-> ->].
    rewrite H1, H2, H3. cbn. unfold set2. rewrite !Nat.eqb_refl. auto.
Qed.

Lemma keys_step_db : forall rd ps a a' r c, keys_step rd ps a = Some a' -> NoDup ps ->
  (a_dn a' r c, a_ct a' r c) =
    if existsb (fun p => (fst p =? r) && (snd p =? c)) ps
    then db (a_dn a r c, a_ct a r c) (reading rd r c) else (a_dn a r c, a_ct a r c).
Proof.
  induction ps as [|[x y] ps IH]; intros a a' r c E ND; cbn [keys_step existsb fst snd] in *.
  - inv E. auto.
  - destruct (key_step rd x y a) as [a1|] eqn:EK; [|discriminate]. cbn [obind] in E. inv ND.
    specialize (IH a1 a' r c E H2). rewrite IH.
    destruct ((x =? r) && (y =? c)) eqn:EQ; cbn [orb].
    + assert (x = r /\ y = c) as [-> ->] by lia.
      assert (NX : existsb (fun p => (fst p =? r) && (snd p =? c)) ps = false).
      { apply not_true_is_false. intros X. apply existsb_exists in X. destruct X as [[u v] [I1 I2]].
        cbn [fst snd] in I2. assert (u = r /\ v = c) as [-> ->] by lia. auto. }
      rewrite NX. apply key_step_db; auto.
    + destruct (key_step_frame _ _ _ _ _ r c EK) as [-> ->]; auto. lia.
Qed.

Lemma NoDup_grid : forall r n, NoDup (grid r n).
Proof.
  intros. unfold grid.
  assert (X : forall (l1 l2 : list nat), NoDup l1 -> NoDup l2 -> NoDup (list_prod l1 l2)).
  { induction l1 as [|x l1 IH]; intros l2 H1 H2; cbn; [constructor|]. inv H1.
    assert (D : forall (l3 l4 : list (nat * nat)), NoDup l3 -> NoDup l4 -> (forall p, In p l3 -> ~ In p l4) -> NoDup (l3 ++ l4)).
    { induction l3 as [|y l3 IH3]; intros l4 A1 A2 A3; cbn; auto. inv A1. constructor.
      - rewrite in_app_iff. intros [B|B]; auto. apply (A3 y); cbn; auto.
      - apply IH3; auto. intros p Hp. apply A3. cbn. auto. }
    apply D; auto.
    - clear -H2. induction H2; cbn; constructor; auto. rewrite in_map_iff. intros [z [E I]]. inv E. auto.
    - intros [u v] Hp. rewrite in_map_iff in Hp. destruct Hp as [z [E I]]. inv E.
      rewrite in_prod_iff. tauto. }
  apply X; apply seq_NoDup.
Qed.

Lemma in_grid : forall r n r' c, existsb (fun p => (fst p =? r') && (snd p =? c)) (grid r n) = true <->
  r <= r' < r + n /\ c < 8.
Proof.
  intros. rewrite existsb_exists. unfold grid. split.
  - intros [[u v] [I E]]. apply in_prod_iff in I. rewrite !in_seq in I. cbn [fst snd] in E. lia.
  - intros H. exists (r', c). split; [apply in_prod_iff; rewrite !in_seq; lia|]. cbn. lia.
Qed.

Lemma asend_dn : forall a, a_dn (asend a) = a_dn a /\ a_ct (asend a) = a_ct a.
Proof.
  intros. unfold asend. destruct (a_qm a); auto. destruct (a_qk a); auto. destruct (n <? 0xA0)%N; auto.
Qed.

Lemma tick_db : forall rd a a' r c, atick rd a = Some a' -> r < 9 -> c < 8 ->
  (a_dn a' r c, a_ct a' r c) = db (a_dn a r c, a_ct a r c) (reading rd r c).
Proof.
  intros rd a a' r c E Hr Hc. unfold atick, ascan in E.
  destruct (keys_step rd (grid 0 9) (asend a)) as [b|] eqn:E1; [|discriminate]. cbn [obind] in E.
  rewrite (keys_step_db _ _ _ _ r c E (NoDup_grid _ _)).
  rewrite (keys_step_db _ _ _ _ r c E1 (NoDup_grid _ _)).
  destruct (asend_dn a) as [-> ->].
  rewrite (proj2 (in_grid 0 9 r c)) by lia.
  destruct (existsb _ (grid 9 _)) eqn:X; auto. apply in_grid in X. lia.
Qed.

Definition key_readings (rds : list (nat -> N)) (r c : nat) : list bool := map (fun rd => reading rd r c) rds.

Lemma key_hist_from : forall rds a a' r c, aticks rds a = Some a' -> r < 9 -> c < 8 ->
  (a_dn a' r c, a_ct a' r c) = fold_left db (key_readings rds r c) (a_dn a r c, a_ct a r c).
Proof.
  induction rds as [|rd rds IH]; intros a a' r c E Hr Hc; cbn [aticks key_readings map fold_left] in *.
  - inv E. auto.
  - destruct (atick rd a) as [b|] eqn:E1; [|discriminate]. cbn [obind] in E.
    rewrite (IH b a' r c E Hr Hc). unfold key_readings. f_equal. apply tick_db; auto.
Qed.
Lemma key_hist : forall rds a r c, arun rds = Some a -> r < 9 -> c < 8 ->
  (a_dn a r c, a_ct a r c) = fold_left db (key_readings rds r c) (false, 10%N).
Proof. intros. apply (key_hist_from rds aboot); auto. Qed.

(** Rows beyond the ninth are never accepted: on the keyboards that have them the
    first lookup already fails. *)
Lemma high_rows : forall rds a r c, arun rds = Some a -> 9 <= r -> a_dn a r c = false.
Proof.
  intros rds a r c E Hr. revert r c Hr.
  apply (ainvariant (fun _ => True) (fun a => forall r c, 9 <= r -> a_dn a r c = false)) with (rds := rds); auto.
  - intros x H r c Hr. destruct (asend_dn x) as [-> _]. auto.
  - intros rd r c x y _ H Hr _ Hc K r' c' Hr'.
    assert (R9 : (a_cur x < 4)%N -> r < 9) by lia.
    destruct K.
    + auto.
    + cbn. auto.
    + destruct (aheld_dn (code_now x r c) x) as [-> _]. auto.
    + destruct (apress_dn (code_now x r c) (accept r c true x)) as [-> _]. cbn. unfold set2.
      specialize (R9 H0). replace (r' =? r) with false by lia. cbn [andb]. auto.
    + destruct (arelease_dn (code_now x r c) (accept r c false x)) as [-> _]. cbn. unfold set2.
      specialize (R9 H0). replace (r' =? r) with false by lia. cbn [andb]. auto.
  - apply True_all.
Qed.
