(** More for any client of the public functions: what is put comes out (C121),
    and a complete restart (C122). *)
From Coq Require Import List NArith ZArith Arith Bool Lia.
From Coq Require Import ZifyBool ZifyNat ZifyN.
From Verif Require Import Base Lib Buffer BufferProofs Repeat Devices DevSpec Modifiers Hook KeymapData Asdf KeySpec KeyRef Obs
     Custom CustomSpec CustomRef PropCustom Client ClientRef PropClient.
Import ListNotations.
Local Open Scope outcome_scope.

(** ** C121: specification *)

(** A client that puts key codes and message characters. *)
Definition puts (k : call) : Prop :=
  match k with KPutCode _ => True | KPutc c => c <> 160%N | _ => False end.
Definition codes_put (ks : list call) : list N := flat_map (fun k => match k with KPutCode c => [c] | _ => [] end) ks.
(** Message characters, a carriage return before each line feed. *)
Definition chars_put (ks : list call) : list N :=
  flat_map (fun k => match k with KPutc c => if (c =? 10)%N then [13; 10]%N else [c] | _ => [] end) ks.

(** ** C122: specification *)
Definition restart : list call := [KModifiersInit; KDelay 0; KInit].

(** Lamps going out. *)
Definition lamps_out (e : event) : Prop := exists p, e = EvOut p 0.

(** ** Sequences of calls *)
Lemma g_calls_app : forall kbs k1 k2 g, g_calls kbs (k1 ++ k2) g =
  ('(r1, g1) <- g_calls kbs k1 g ;; '(r2, g2) <- g_calls kbs k2 g1 ;; Ok (r1 ++ r2, g2)).
Proof.
  induction k1 as [|k k1 IH]; intros k2 g; cbn [app g_calls bind].
  - destruct (g_calls kbs k2 g) as [[r2 g2]|u]; reflexivity.
  - destruct (g_call kbs k g) as [[r g1]|u]; cbn [bind]; [|reflexivity]. rewrite IH.
    destruct (g_calls kbs k1 g1) as [[r1 g2]|u]; cbn [bind]; [|reflexivity].
    destruct (g_calls kbs k2 g2) as [[r2 g3]|u]; reflexivity.
Qed.
Lemma g_calls_length : forall kbs ks g rs g', g_calls kbs ks g = Ok (rs, g') -> length rs = length ks.
Proof.
  induction ks as [|k ks IH]; intros g rs g' H; cbn [g_calls] in H; [inv H; reflexivity|].
  apply bind_Ok_inv in H. destruct H as [[r g1] [_ H]]. apply bind_Ok_inv in H. destruct H as [[rs1 g2] [E H]]. inv H.
  cbn. f_equal. eapply IH; eauto.
Qed.

(** From the abstract machine to the firmware. *)
Lemma to_client : forall kbs cs ks rs g, kbs 0%N = Some cs -> Forall proper ks ->
  g_calls kbs ks (gboot kbs) = Ok (rs, g) -> exists s, client kbs ks = Ok (rs, s) /\ GRel g s.
Proof.
  intros kbs cs ks rs g HK HP E. pose proof (client_sim kbs cs ks HK HP) as X. unfold gclient in X. rewrite E in X.
  cbn [osim] in X. destruct X as [[rs' s] [X [Y Z]]]. cbn [fst snd] in *. subst rs'. eauto.
Qed.
Lemma of_client : forall kbs cs ks rs s, kbs 0%N = Some cs -> Forall proper ks -> client kbs ks = Ok (rs, s) ->
  exists g, g_calls kbs ks (gboot kbs) = Ok (rs, g) /\ GRel g s.
Proof.
  intros kbs cs ks rs s HK HP E. pose proof (client_sim kbs cs ks HK HP) as X. unfold gclient in X.
  destruct (g_calls kbs ks (gboot kbs)) as [[rg g]|u]; cbn [osim] in X.
  - destruct X as [[rs' s'] [X [Y Z]]]. cbn [fst snd] in *. subst rg. rewrite E in X. inv X. eauto.
  - rewrite E in X. discriminate.
Qed.

(** ** C121: proof *)
Section Puts.
Variable kbs : N -> option (list setup_cmd).

(** Reading on empties both queues. *)
Lemma drain : forall n g, length (g_qm g) + length (g_qk g) <= n ->
  exists rs g', g_calls kbs (repeat KNextCode n) g = Ok (rs, g') /\ g_qm g' = [] /\ g_qk g' = [].
Proof.
  induction n as [|n IH]; intros g H; cbn [repeat g_calls].
  - exists [], g. split; auto. destruct (g_qm g), (g_qk g); cbn in H; auto; lia.
  - cbn [g_call]. cbv zeta.
    assert (X : exists r g1, (if (hd 0xA0 (g_qm g) =? 0xA0)%N
        then Ok (Num (Z.of_N (hd 0xA0%N (g_qk g))), gp_qk (tl (g_qk g)) (gp_qm (tl (g_qm g)) g))
        else Ok (Num (Z.of_N (hd 0xA0%N (g_qm g))), gnote (EvDelayMs (g_delay g)) (gp_qm (tl (g_qm g)) g))) = Ok (r, g1) /\
        length (g_qm g1) + length (g_qk g1) <= n).
    { destruct (g_qm g) as [|m qm] eqn:EM; cbn [hd tl].
      - do 2 eexists. split; [reflexivity|]. cbn. destruct (g_qk g); cbn in *; lia.
      - destruct (m =? 0xA0)%N; (do 2 eexists; split; [reflexivity|]); cbn; destruct (g_qk g); cbn in *; lia. }
    destruct X as (r&g1&E&L). rewrite E. cbn [bind]. destruct (IH g1 L) as (rs&g2&E2&Z). rewrite E2. cbn [bind].
    exists (r :: rs), g2. auto.
Qed.

Lemma put_run : forall ins g, Forall puts ins ->
  length (g_qk g) + length (codes_put ins) <= 16 -> length (g_qm g) + length (chars_put ins) <= 128 ->
  exists g', g_calls kbs ins g = Ok (map (fun k => match k with KPutc c => Num (Z.of_N c) | _ => Void end) ins, g') /\
    g_qk g' = g_qk g ++ codes_put ins /\ g_qm g' = g_qm g ++ chars_put ins.
Proof.
  induction ins as [|k ins IH]; intros g HP HK HM.
  - exists g. cbn. rewrite !app_nil_r. auto.
  - inv HP. destruct k; cbn [puts] in H1; try contradiction; cbn [g_calls g_call bind map codes_put chars_put flat_map app] in *;
      fold (codes_put ins) in *; fold (chars_put ins) in *.
    + cbn [length] in HK. destruct (IH (gp_qk (qput 16 c (g_qk g)) g) H2) as [g' (E&A&B)].
      * cbn. unfold qput. replace (length (g_qk g) <? 16) with true by lia. rewrite app_length. cbn. lia.
      * cbn. lia.
      * rewrite E. cbn [bind]. exists g'. split; auto. rewrite A, B. cbn [g_qk g_qm gp_qk]. unfold qput.
        replace (length (g_qk g) <? 16) with true by lia. rewrite <- app_assoc. auto.
    + rewrite app_length in HM.
      assert (Q : qput_all 128 (expand [c]) (g_qm g) = g_qm g ++ (if (c =? 10)%N then [13; 10]%N else [c])).
      { unfold expand. cbn [flat_map]. rewrite app_nil_r. destruct (N.eqb_spec c 10) as [-> | NE]; cbn [qput_all length] in *; unfold qput.
        - replace (length (g_qm g) <? 128) with true by lia. rewrite app_length. cbn [length].
          replace (length (g_qm g) + 1 <? 128) with true by lia. rewrite <- app_assoc. reflexivity.
        - replace (length (g_qm g) <? 128) with true by lia. reflexivity. }
      rewrite Q. destruct (IH (gp_qm (g_qm g ++ (if (c =? 10)%N then [13; 10]%N else [c])) g) H2) as [g' (E&A&B)].
      * cbn. lia.
      * cbn. rewrite app_length. lia.
      * rewrite E. cbn [bind]. exists g'. split; auto. rewrite A, B. cbn [g_qk g_qm gp_qm]. rewrite <- app_assoc. auto.
Qed.

Lemma read_keys : forall qk n g, g_qm g = [] -> g_qk g = qk ->
  exists g', g_calls kbs (repeat KNextCode (length qk + n)) g =
    Ok (map (fun c => Num (Z.of_N c)) qk ++ repeat (Num 160) n, g').
Proof.
  induction qk as [|c qk IH]; intros n g HM HK.
  - cbn [length plus map app]. revert g HM HK. induction n as [|n IHn]; intros g HM HK; cbn [repeat g_calls].
    + eauto.
    + cbn [g_call]. rewrite HM, HK. cbn [hd tl]. change (160 =? 160)%N with true. cbv iota zeta. cbn [bind].
      destruct (IHn (gp_qk [] (gp_qm [] g)) eq_refl eq_refl) as [g' E]. rewrite E. cbn. eauto.
  - cbn [length plus repeat g_calls g_call]. rewrite HM, HK. cbn [hd tl]. change (160 =? 160)%N with true. cbv iota zeta. cbn [bind].
    destruct (IH n (gp_qk qk (gp_qm [] g)) eq_refl eq_refl) as [g' E]. rewrite E. cbn. eauto.
Qed.

Lemma read_all : forall qm n g, g_qm g = qm -> Forall (fun c => c <> 160%N) qm ->
  exists g', g_calls kbs (repeat KNextCode (length qm + (length (g_qk g) + n))) g =
    Ok (map (fun c => Num (Z.of_N c)) (qm ++ g_qk g) ++ repeat (Num 160) n, g').
Proof.
  induction qm as [|c qm IH]; intros n g HM HF.
  - cbn [length plus app]. apply read_keys; auto.
  - inv HF. cbn [length plus repeat g_calls g_call]. rewrite HM. cbn [hd tl]. cbv zeta.
    replace (c =? 0xA0)%N with false by lia. cbn [bind].
    destruct (IH n (gnote (EvDelayMs (g_delay g)) (gp_qm qm g)) eq_refl H2) as [g' E]. cbn [g_qk gnote gp_log gp_qm] in E.
    rewrite E. cbn. eauto.
Qed.

End Puts.

Lemma chars_ok : forall ins, Forall puts ins -> Forall (fun c => c <> 160%N) (chars_put ins).
Proof.
  induction ins as [|k ins IH]; intros H; cbn [chars_put flat_map]; [constructor|]. inv H.
  apply Forall_app. split; [|apply IH; auto]. destruct k; cbn [puts] in H2; auto.
  destruct (N.eqb_spec c 10); repeat constructor; try lia; auto.
Qed.

Lemma qput_cap : forall cap c q, length q <= cap -> length (qput cap c q) <= cap.
Proof. intros. unfold qput. destruct (Nat.ltb_spec (length q) cap); auto. rewrite app_length. cbn. lia. Qed.

(** After any session, once 144 codes have been asked for, whatever is put is
    what comes out: all message characters in order, then all key codes in
    order, then "none". *)
Theorem C121_what_is_put_comes_out : forall kbs cs ks rs s ins n,
  kbs 0%N = Some cs -> Forall proper ks -> client kbs ks = Ok (rs, s) ->
  Forall puts ins -> length (codes_put ins) <= 16 -> length (chars_put ins) <= 128 ->
  let out := chars_put ins ++ codes_put ins in
  exists r1 s', client kbs (ks ++ repeat KNextCode 144 ++ ins ++ repeat KNextCode (length out + n)) =
    Ok (r1 ++ map (fun c => Num (Z.of_N c)) out ++ repeat (Num 160) n, s') /\
    length r1 = length ks + 144 + length ins.
Proof.
  intros kbs cs ks rs s ins n HK HP E HI LK LM out.
  destruct (of_client _ _ _ _ _ HK HP E) as [g (EG&RG)].
  assert (CAP : length (g_qm g) + length (g_qk g) <= 144).
  { destruct (rs_buf _ _ (proj2 RG)) as (_&_&_&_&_&_&B). cbn in B.
    destruct (buffers (k_buf s)) as [|d1 [|d2 ds]]; cbn [bufsrep] in B; [destruct B|destruct B as [_ []]|].
    destruct B as [B1 [B2 _]]. destruct B1 as (_&_&_&_&B1&_). destruct B2 as (_&_&_&_&B2&_). cbn in B1, B2. lia. }
  destruct (drain kbs 144 g CAP) as (r2&g2&E2&M2&K2).
  destruct (put_run kbs ins g2 HI) as [g3 (E3&K3&M3)]; [rewrite K2; auto|rewrite M2; auto|].
  rewrite K2 in K3. rewrite M2 in M3. cbn [app] in K3, M3.
  destruct (read_all kbs (chars_put ins) n g3 M3 (chars_ok ins HI)) as [g4 E4]. rewrite K3 in E4.
  assert (EA : g_calls kbs (ks ++ repeat KNextCode 144 ++ ins ++ repeat KNextCode (length out + n)) (gboot kbs) =
    Ok ((rs ++ r2 ++ map (fun k => match k with KPutc c => Num (Z.of_N c) | _ => Void end) ins) ++
        map (fun c => Num (Z.of_N c)) out ++ repeat (Num 160) n, g4)).
  { rewrite g_calls_app, EG. cbn [bind]. rewrite g_calls_app, E2. cbn [bind]. rewrite g_calls_app, E3. cbn [bind].
    unfold out. rewrite app_length, <- Nat.add_assoc, E4. cbn [bind]. rewrite <- !app_assoc. reflexivity. }
  assert (PR : Forall proper (ks ++ repeat KNextCode 144 ++ ins ++ repeat KNextCode (length out + n))).
  { apply Forall_app. split; auto. apply Forall_app. split; [apply Forall_forall; intros x Hx; apply repeat_spec in Hx; subst; exact I|].
    apply Forall_app. split; [|apply Forall_forall; intros x Hx; apply repeat_spec in Hx; subst; exact I].
    eapply Forall_impl; [|exact HI]. intros k X; destruct k; cbn [puts] in X; try contradiction; exact I. }
  destruct (to_client kbs cs _ _ _ HK PR EA) as [s' [ES _]].
  exists (rs ++ r2 ++ map (fun k => match k with KPutc c => Num (Z.of_N c) | _ => Void end) ins), s'.
  split; [exact ES|]. rewrite !app_length, map_length, (g_calls_length _ _ _ _ _ EG), (g_calls_length _ _ _ _ _ E2), repeat_length. lia.
Qed.
Print Assumptions C121_what_is_put_comes_out.

(** ** C122: proof *)

(** The same machine with a longer past. *)
Definition behind (e : list event) (g : gkb) : gkb := gp_log (g_log g ++ e) g.

Section Past.
Variable kbs : N -> option (list setup_cmd).
Variable e : list event.
Notation B := (behind e).
Definition oB (x : outcome gkb) : outcome gkb := g <- x ;; Ok (B g).

Lemma act_past : forall f v g, gact f v (B g) = B (gact f v g).
Proof.
  intros. unfold gact. cbn [behind gp_log g_vs]. destruct (spec_action f (own (g_vs g) v) (lev (g_vs g))) as [lv ev].
  unfold behind, gp_log, gp_vs. cbn. rewrite app_assoc. reflexivity.
Qed.
Lemma shift_past : forall x g, gset_shift x (B g) = B (gset_shift x g).
Proof. intros. unfold gset_shift. rewrite act_past. reflexivity. Qed.
Lemma caps_past : forall g, gtoggle_caps (B g) = B (gtoggle_caps g).
Proof. intros. unfold gtoggle_caps. change (g_mod (B g)) with (g_mod g). rewrite act_past. reflexivity. Qed.
Lemma hook_past : forall id g, ghook id (B g) = oB (ghook id g).
Proof.
  intros. unfold ghook. change (g_hook (B g)) with (g_hook g).
  destruct (nth id (g_hook g) HUnset) as [| | | | |m]; try reflexivity. destruct (format m); reflexivity.
Qed.
Lemma setup_past : forall cs g, gsetup cs (B g) = B (gsetup cs g).
Proof.
  induction cs as [|c cs IH]; intros g; [reflexivity|].
  change (gsetup cs (gsetup_step c (B g)) = B (gsetup cs (gsetup_step c g))). rewrite <- IH. f_equal.
  destruct c; cbn [gsetup_step]; try reflexivity.
  - destruct ((mi <? 4) && (rows <=? 16) && (cols <=? 8)); reflexivity.
  - destruct ((0 <? id) && (id <? 16)); reflexivity.
  - apply caps_past.
Qed.
Lemma switch_past : forall i g, gswitch kbs i (B g) = B (gswitch kbs i g).
Proof.
  intros. unfold gswitch. destruct (kbs i); [|reflexivity]. rewrite <- setup_past. reflexivity.
Qed.
Lemma select_past : forall i g, gselect kbs i (B g) = B (gselect kbs i g).
Proof. intros. unfold gselect. change (g_cur (B g)) with (g_cur g). destruct (i =? g_cur g)%N; [reflexivity|]. apply switch_past. Qed.

Lemma on_past : forall c g, gaction_on kbs c (B g) = oB (gaction_on kbs c g).
Proof.
  intros. unfold gaction_on. change (g_mod (B g)) with (g_mod g). change (g_cur (B g)) with (g_cur g). change (g_vs (B g)) with (g_vs g).
  destruct (decode c); rewrite ?shift_past, ?caps_past, ?select_past, ?act_past, ?hook_past; try reflexivity.
  destruct (n <=? 10); reflexivity.
Qed.
Lemma off_past : forall c g, gaction_off kbs c (B g) = B (gaction_off kbs c g).
Proof.
  intros. unfold gaction_off. change (g_cur (B g)) with (g_cur g).
  destruct (decode c); rewrite ?shift_past, ?select_past; reflexivity.
Qed.
Lemma press_past : forall c g, gpress kbs c (B g) = oB (gpress kbs c g).
Proof.
  intros. unfold gpress. destruct (0xA0 <? c)%N; [apply on_past|]. change (g_last (B g)) with (g_last g).
  cbv zeta. destruct (g_last g =? c)%N; reflexivity.
Qed.
Lemma release_past : forall c g, grelease kbs c (B g) = B (grelease kbs c g).
Proof.
  intros. unfold grelease. destruct (0xA0 <? c)%N; [apply off_past|]. change (g_last (B g)) with (g_last g).
  destruct (g_last g =? c)%N; reflexivity.
Qed.
Lemma held_past : forall c g, gheld kbs c (B g) = oB (gheld kbs c g).
Proof.
  intros. unfold gheld. change (g_last (B g)) with (g_last g). change (g_rep (B g)) with (g_rep g).
  destruct (c =? g_last g)%N; [|reflexivity]. destruct (repeat_tick (g_rep g)) as [[] r]; [|reflexivity].
  apply (press_past c (gp_rep r g)).
Qed.
Lemma key_past : forall rd r c g, gkey kbs rd r c (B g) = oB (gkey kbs rd r c g).
Proof.
  intros. unfold gkey. change (g_dn (B g)) with (g_dn g). change (g_ct (B g)) with (g_ct g). cbv zeta.
  change (gcode r c (B g)) with (gcode r c g).
  destruct (Bool.eqb (reading rd r c) (g_dn g r c)).
  - destruct (reading rd r c); [|reflexivity]. destruct (gcode r c g); [|reflexivity]. cbn [bind]. apply held_past.
  - destruct (g_ct g r c =? 1)%N; [|reflexivity].
    set (g1 := gp_dn (set2 (g_dn g) r c (reading rd r c)) (gp_ct (set2 (g_ct g) r c 10%N) g)).
    change (gp_dn (set2 (g_dn g) r c (reading rd r c)) (gp_ct (set2 (g_ct g) r c 10%N) (B g))) with (B g1).
    change (gcode r c (B g1)) with (gcode r c g1). destruct (gcode r c g1); [|reflexivity]. cbn [bind].
    destruct (reading rd r c); [apply press_past|]. rewrite release_past. reflexivity.
Qed.
Lemma oB_bind : forall x f, (forall g, f (B g) = oB (f g)) -> bind (oB x) f = oB (bind x f).
Proof. intros [g|u] f H; cbn; auto. Qed.
Lemma cols_past : forall n rd r c g, gcols kbs n rd r c (B g) = oB (gcols kbs n rd r c g).
Proof.
  induction n as [|n IH]; intros; cbn [gcols]; [reflexivity|]. change (g_cols (B g)) with (g_cols g).
  destruct (c <? g_cols g); [|reflexivity]. rewrite key_past. apply oB_bind. intros. apply IH.
Qed.
Lemma rows_past : forall n rd r g, grows kbs n rd r (B g) = oB (grows kbs n rd r g).
Proof.
  induction n as [|n IH]; intros; cbn [grows]; [reflexivity|]. change (g_rows (B g)) with (g_rows g).
  destruct (r <? g_rows g); [|reflexivity]. rewrite cols_past. apply oB_bind. intros. apply IH.
Qed.
Lemma scan_past : forall rd g, gscan kbs rd (B g) = oB (gscan kbs rd g).
Proof.
  intros. unfold gscan. change (g_hook (B g)) with (g_hook g). destruct (nth HOOK_ROW_SCANNER (g_hook g) HUnset); try reflexivity.
  rewrite hook_past. apply oB_bind. intros. apply rows_past.
Qed.

Definition rB {A} (x : outcome (A * gkb)) : outcome (A * gkb) := '(r, g) <- x ;; Ok (r, B g).
Lemma silent_past : forall x, silent (oB x) = rB (silent x).
Proof. intros [g|u]; reflexivity. Qed.

Lemma call_past : forall k g, g_call kbs k (B g) = rB (g_call kbs k g).
Proof.
  intros k g. destruct k; cbn [g_call]; try reflexivity.
  - cbn [rB bind]. unfold ginit. rewrite <- switch_past. reflexivity.
  - rewrite scan_past. apply silent_past.
  - change (g_qm (B g)) with (g_qm g). cbv zeta. destruct (hd 0xA0 (g_qm g) =? 0xA0)%N; reflexivity.
  - destruct ((mi <? 4) && (rows <=? 16) && (cols <=? 8)); reflexivity.
  - rewrite select_past. reflexivity.
  - change (g_cur (B g)) with (g_cur g). rewrite select_past. reflexivity.
  - change (g_cur (B g)) with (g_cur g). rewrite select_past. reflexivity.
  - rewrite switch_past. reflexivity.
  - change (gcode_in r c mi (B g)) with (gcode_in r c mi g). destruct (gcode_in r c mi g); reflexivity.
  - rewrite shift_past. reflexivity.
  - rewrite shift_past. reflexivity.
  - rewrite shift_past. reflexivity.
  - rewrite caps_past. reflexivity.
  - rewrite shift_past. reflexivity.
  - rewrite shift_past. unfold gcaps_off. rewrite act_past. reflexivity.
  - change (g_rep (B g)) with (g_rep g). destruct (repeat_tick (g_rep g)). reflexivity.
  - unfold gqput. destruct (h =? 0)%Z, (h =? 1)%Z; reflexivity.
  - unfold gqpop, gqueue. destruct (h =? 0)%Z, (h =? 1)%Z; reflexivity.
  - unfold gvirtual. destruct (v <? 12); [|reflexivity]. rewrite act_past. reflexivity.
  - unfold gvirtual. destruct (v <? 12); [|reflexivity]. rewrite act_past. reflexivity.
  - unfold gline. destruct (p <? 13); reflexivity.
  - unfold gline. destruct (p <? 13); reflexivity.
  - unfold gline. destruct (p <? 13); reflexivity.
  - destruct (p <? 13); reflexivity.
  - unfold gline. destruct (p <? 13); reflexivity.
  - change (ghook_of id (B g)) with (ghook_of id g). rewrite scan_past, hook_past, !silent_past.
    destruct (ghook_of id g), ((0 <? id) && (id <? 16)); reflexivity.
  - destruct ((0 <? id) && (id <? 16)); reflexivity.
  - destruct (format m); reflexivity.
Qed.
Lemma calls_past : forall ks g, g_calls kbs ks (B g) = rB (g_calls kbs ks g).
Proof.
  induction ks as [|k ks IH]; intros g; cbn [g_calls]; [reflexivity|]. rewrite call_past.
  destruct (g_call kbs k g) as [[r g1]|u]; cbn [rB bind]; [|reflexivity]. rewrite IH.
  destruct (g_calls kbs ks g1) as [[rs g2]|u]; reflexivity.
Qed.

End Past.

(** What the modifier functions drive. *)
Lemma drive_zero : forall l lv, Forall lamps_out (snd (drive (fun _ => 0%N) l lv)).
Proof.
  induction l as [|p l IH]; intros lv; cbn [drive]; [constructor|].
  pose proof (IH (set_at lv p 0%N)) as X. destruct (drive (fun _ => 0%N) l (set_at lv p 0%N)) as [lv2 ev]. cbn [snd] in *.
  constructor; auto. exists p. reflexivity.
Qed.
Lemma lo_log : forall v g, exists l, g_log (gact V_SET_LO v g) = l ++ g_log g /\ Forall lamps_out l.
Proof.
  intros. unfold gact. cbn [spec_action]. pose proof (drive_zero (own (g_vs g) v) (lev (g_vs g))) as X.
  destruct (drive (fun _ => 0%N) (own (g_vs g) v) (lev (g_vs g))) as [lv ev]. cbn [snd] in X. exists (rev ev). split; [reflexivity|].
  apply Forall_rev; auto.
Qed.

Lemma act_mod : forall f v g, g_mod (gact f v g) = g_mod g.
Proof. intros. unfold gact. destruct (spec_action f (own (g_vs g) v) (lev (g_vs g))). reflexivity. Qed.

(** Selecting a keyboard makes lines, hooks, maps and the current keyboard anew. *)
Lemma clear_form : forall i g, gclear i g =
  mkG (g_dn g) (g_ct g) (g_last g) (g_qk g) (g_qm g) (g_rep g) (g_mod g) spec_zero (EvArchInit :: g_log g) i
      (repeat no_map 4) hook_init (g_delay g).
Proof. intros i g. destruct g. reflexivity. Qed.
Lemma clear_same : forall e vs cur maps hook,
  gclear 0 (mkG (fun _ _ => false) (fun _ _ => 10%N) 0xA0 [] [] (repeat_init rep_zero) mods_zero vs e cur maps hook 0) =
  gclear 0 (behind e gzero).
Proof. intros. rewrite !clear_form. reflexivity. Qed.

Lemma restart_is_boot : forall kbs cs g, kbs 0%N = Some cs ->
  exists l, g_calls kbs restart g = Ok ([Void; Void; Void], behind (l ++ g_log g) (gboot kbs)) /\ Forall lamps_out l.
Proof.
  intros kbs cs g HK. unfold restart. cbn [g_calls g_call bind].
  set (g1 := gset_shift 0 g). set (g2 := gcaps_off g1).
  destruct (lo_log VSHIFT_LED g) as [l1 [L1 F1]]. destruct (lo_log VCAPS_LED g1) as [l2 [L2 F2]].
  exists (l2 ++ l1). split; [|apply Forall_app; auto]. f_equal. f_equal.
  set (G := gp_delay (u8 0) (gset_ctrl 0 g2)).
  assert (EL : g_log G = (l2 ++ l1) ++ g_log g).
  { change (g_log (gact V_SET_LO VCAPS_LED g1) = (l2 ++ l1) ++ g_log g). rewrite L2. unfold g1.
    change (l2 ++ g_log (gact V_SET_LO VSHIFT_LED g) = (l2 ++ l1) ++ g_log g). rewrite L1. apply app_assoc. }
  assert (EM : g_mod G = mods_zero).
  { unfold G, g2, gcaps_off, g1, gset_shift, gset_ctrl, gp_mod. cbn [g_mod gp_delay m_shift m_caps m_ctrl].
    rewrite ?act_mod. cbn [g_mod m_shift m_caps m_ctrl]. rewrite ?act_mod. reflexivity. }
  assert (ED : g_delay G = 0%N) by reflexivity.
  clearbody G. clear -HK EL EM ED. unfold ginit, gboot. rewrite <- switch_past. unfold gswitch. rewrite HK. f_equal.
  rewrite EL, EM, ED. apply clear_same.
Qed.

(** After any session, asdf_modifiers_init, asdf_set_print_delay(0) and
    asdf_init put the firmware back to power-on: any further session returns
    the same values, drives the hardware the same, and is undefined just if it is
    after power-on.  The three calls themselves only put lamps out. *)
Theorem C122_restart_is_power_on : forall kbs cs h rs s ks,
  kbs 0%N = Some cs -> Forall proper h -> Forall proper ks -> client kbs h = Ok (rs, s) ->
  exists mid, Forall lamps_out mid /\
  match seen (client kbs ks) with
  | Ok (rk, ek) =>
      seen (client kbs (h ++ restart ++ ks)) = Ok (rs ++ [Void; Void; Void] ++ rk, events s ++ mid ++ ek)
  | Bad u => seen (client kbs (h ++ restart ++ ks)) = Bad u
  end.
Proof.
  intros kbs cs h rs s ks HK H1 H2 E. destruct (of_client _ _ _ _ _ HK H1 E) as [g (EG&RG)].
  destruct (restart_is_boot kbs cs g HK) as [l [EL FL]]. exists (rev l). split; [apply Forall_rev; auto|].
  assert (HP : Forall proper (h ++ restart ++ ks)).
  { apply Forall_app. split; auto. apply Forall_app. split; auto. repeat constructor. }
  rewrite (C118_client_refines kbs cs _ HK HP), (C118_client_refines kbs cs _ HK H2). unfold gclient.
  rewrite g_calls_app, EG. cbn [bind]. rewrite g_calls_app, EL. cbn [bind]. rewrite calls_past.
  destruct (g_calls kbs ks (gboot kbs)) as [[rk gk]|u]; [|reflexivity]. cbn [rB bind gseen].
  f_equal. f_equal. unfold behind. cbn [g_log gp_log]. rewrite !rev_app_distr.
  unfold events. rewrite (rt_log _ _ (proj1 RG)). rewrite <- app_assoc. reflexivity.
Qed.
Print Assumptions C122_restart_is_power_on.

(** ** Examples *)
Definition mess : list call :=
  [KCapslock; KShiftlockOn; KSelect 2; KPutCode 1; KPutCode 2; KPutc 3; KDelay 7; KAutoOff; KHookAssign 5 (HPrint [33]%N)].
Example C121_example :
  Forall puts [KPutCode 65; KPutc 10; KPutCode 66] /\
  match seen (client (choice four) (mess ++ repeat KNextCode 144 ++ [KPutCode 65; KPutc 10; KPutCode 66] ++ repeat KNextCode 5)) with
  | Ok (rs, _) => skipn 156 rs = [Num 13; Num 10; Num 65; Num 66; Num 160]
  | Bad _ => False
  end.
Proof. split; [repeat constructor; cbn; lia|]. vm_compute. reflexivity. Qed.

Example C122_example :
  seen (client (choice four) (mess ++ restart ++ [KModifierIndex; KGetCode 1 1 0; KNextCode])) =
    Ok (repeat Void 5 ++ [Num 3] ++ repeat Void 3 ++ [Void; Void; Void] ++ [Num 0; Num 112; Num 160],
        [EvArchInit; EvOut 12 1; EvArchInit; EvOut 10 0; EvOut 10 0] ++ [EvArchInit]) /\
  seen (client (choice four) [KModifierIndex; KGetCode 1 1 0; KNextCode]) = Ok ([Num 0; Num 112; Num 160], [EvArchInit]).
Proof. vm_compute. split; reflexivity. Qed.

(** asdf_init alone is not enough: the modifiers survive it (C49). *)
Theorem C122_init_alone_refuted : exists h ks rs rk ek rb eb,
  seen (client (choice four) h) = Ok (rs, ek) /\ seen (client (choice four) ks) = Ok (rk, eb) /\
  option_map (skipn (length h + 1)) (match client (choice four) (h ++ [KInit] ++ ks) with Ok (r, _) => Some r | Bad _ => None end)
    = Some rb /\ rb <> rk.
Proof.
  exists [KShiftlockOn], [KModifierIndex]. do 5 eexists.
  split; [vm_compute; reflexivity|]. split; [vm_compute; reflexivity|]. split; [vm_compute; reflexivity|]. discriminate.
Qed.
Print Assumptions C122_init_alone_refuted.
