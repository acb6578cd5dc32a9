(** The firmware and the reference keyboard machine: C57. *)
From Coq Require Import List NArith ZArith Arith Bool Lia.
From Verif Require Import Base Lib Buffer BufferSpec BufferProofs Repeat Devices DevSpec DevProofs
     Modifiers Hook KeymapData Asdf KeySpec KeyRef Obs.
Import ListNotations.

(** The reference machine (KeySpec.v) keeps a function from key positions to
    booleans, two lists and the static keyboard tables; no bytes, buffers,
    linked lists or registered maps. *)
Record same (a : akb) (s : kb) : Prop := mkSame {
  sm_down : forall r c, r < 16 -> c < 8 -> down s r c = a_dn a r c;
  sm_keys : key_queue s = a_qk a;
  sm_msgs : msg_queue s = a_qm a;
  sm_events : events s = rev (a_log a);
  sm_mods : k_mod s = a_mod a;
  sm_last : k_last s = a_last a;
  sm_rep : k_rep s = a_rep a;
  sm_cur : k_cur s = a_cur a;
  sm_levels : forall d, d < 13 -> exists p, nth_error (ptab (k_dev s)) d = Some p /\ p_shadow p = a_lev a d
}.

Lemma rel_same : forall a s, Rel a s -> same a s.
Proof.
  intros a s H. constructor; intros.
  - apply (down_ok _ _ _ _ H); auto.
  - apply key_queue_ok; auto.
  - apply msg_queue_ok; auto.
  - apply events_ok; auto.
  - apply (rl_mod _ _ H).
  - apply (rl_last _ _ H).
  - apply (rl_rep _ _ H).
  - apply (rl_cur _ _ H).
  - assert (HL : d < length (ptab (k_dev s))) by (rewrite (rd_plen _ _ (rl_dev _ _ H)); auto).
    destruct (nth_error_ex _ _ _ HL) as [p E]. exists p. split; auto. exact (rd_lev _ _ (rl_dev _ _ H) _ _ E).
Qed.

(** For every input the firmware and the reference machine agree on everything
    observable; where the reference machine has no result the firmware reads
    outside its keymap table. *)
Theorem C57_reference_machine : forall rds,
  match arun rds with
  | Some a => exists s, run rds = Ok s /\ same a s
  | None => run rds = Bad UKeymapsOob
  end.
Proof.
  intros rds. pose proof (run_sim rds) as X. destruct (arun rds) as [a|]; cbn [sim] in X; auto.
  destruct X as [s [E R]]. exists s. split; auto using rel_same.
Qed.
Print Assumptions C57_reference_machine.

(** A run with shifted and repeated typing and a keyboard change, and a run into
    keyboard 4. *)
Example C57_example :
  option_map (fun a => (sends (rev (a_log a)), a_cur a))
    (arun (hold 12 [(0, 1); (1, 1)] ++ hold 600 [(0, 1); (1, 1)] ++ hold 12 [(8, 1); (2, 2)])) = Some ([80; 80; 80; 109]%N, 2%N) /\
  (match arun (hold 12 [(8, 2)]) with Some _ => false | None => true end) = true.
Proof. split; vm_compute; reflexivity. Qed.
