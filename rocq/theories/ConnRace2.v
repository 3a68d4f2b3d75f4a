(** A BEAT ACK that arrives early races with the heartbeat goroutine. *)
From Verif Require Import GoBase ParamsModel MessagesModel ConfigModel ConnModel ConnSpec ConnBase ConnInv WireSpec ConnLife RaceSpec.
From Coq Require Import Arith Lia.
Open Scope nat_scope.

(** the acknowledgement of a BEAT that arrives before the data are noted *)
Lemma ack_races c d : crash c = None -> hb c = BStore d -> length d = 128 -> d <> hbd c ->
  mon c = MRead -> sopen c = true -> ctxd c = false -> inq c = [] -> state c = Active ->
  exists c', run c ([LArrive (packet x01 x00 x03 x06 140 (body_of [(9%N, d)])); LMon true] ++ repeat (LHand (length (hs c)) true) 2) = Some c' /\
    race c' /\ log c' = log c ++ [ERead (packet x01 x00 x03 x06 140 (body_of [(9%N, d)]))].
Proof.
  intros C H L N M S X Q A.
  destruct (back_packet128 d L) as (LB & t & [P V] & K & D). set (raw := packet _ _ _ _ _ _) in *.
  assert (B1 : firstn bufsize raw = raw) by (apply firstn_all2; exact LB).
  assert (B2 : skipn bufsize raw = []) by (apply skipn_all2; exact LB).
  clearbody raw. set (n := length (hs c)).
  set (c' := set_hs (hs c ++ [[IHandle t; IBeatAck; ICur]]) (set_mon MSelect (set_inq [] (emit (ERead raw) c)))).
  exists c'. split; [|split; [|reflexivity]].
  - fold n. cbn [run app repeat].
    unfold step at 1. rewrite C. cbv iota beta. rewrite Q. cbn [app].
    unfold step at 1. change (crash (set_inq [raw] c)) with (crash c). rewrite C. unfold step_mon.
    change (mon (set_inq [raw] c)) with (mon c). rewrite M. change (sopen (set_inq [raw] c)) with (sopen c). rewrite S.
    change (inq (set_inq [raw] c)) with [raw]. cbv iota beta zeta. cbn [andb]. rewrite B1, B2.
    set (c1 := set_mon MSelect _).
    assert (E1 : step c1 (LHand n true) = Some (set_hs (hs c ++ [[ISig (Typed t)]]) c1)).
    { unfold step. change (crash c1) with (crash c). rewrite C. unfold step_hand.
      change (hs c1) with (hs c ++ [[IParse raw]]). rewrite nth_error_app2 by (unfold n; lia).
      unfold n. rewrite Nat.sub_diag. cbn [nth_error]. rewrite P.
      rewrite upd_last. reflexivity. }
    rewrite E1. set (c2 := set_hs _ c1).
    assert (E2 : step c2 (LHand n true) = Some c').
    { unfold step. change (crash c2) with (crash c). rewrite C. unfold step_hand.
      change (hs c2) with (hs c ++ [[ISig (Typed t)]]). rewrite nth_error_app2 by (unfold n; lia).
      unfold n. rewrite Nat.sub_diag. cbn [nth_error]. change (ctxd c2) with (ctxd c). rewrite X.
      rewrite V. cbn [N.eqb Pos.eqb negb]. unfold plan. rewrite K.
      rewrite upd_last. reflexivity. }
    rewrite E2. reflexivity.
  - assert (HS : nth_error (hs c') n = Some [IHandle t; IBeatAck; ICur]).
    { change (hs c') with (hs c ++ [[IHandle t; IBeatAck; ICur]]). rewrite nth_error_app2 by (unfold n; lia).
      unfold n. now rewrite Nat.sub_diag. }
    exists (LHb true), (LHand n true). split; [discriminate|]. split.
    + eexists. split.
      * unfold step. change (crash c') with (crash c). rewrite C. unfold step_hb. change (hb c') with (hb c). rewrite H. reflexivity.
      * exact N.
    + left. exists d. unfold step. change (crash (set_hbd d c')) with (crash c). change (crash c') with (crash c). rewrite C.
      unfold step_hand. change (hs (set_hbd d c')) with (hs c'). rewrite HS.
      change (unlocked (set_hbd d c')) with true. change (unlocked c') with true. cbv iota.
      change (hbd (set_hbd d c')) with d. change (hbd c') with (hbd c).
      change (state (set_hbd d c')) with (state c). change (state c') with (state c).
      change (cfg (set_hbd d c')) with (cfg c). change (cfg c') with (cfg c). rewrite A.
      unfold handle. rewrite K. cbn [st_eqb negb].
      unfold hbdata in D. destruct (fget FHeartbeatData (m_f t)) as [p|]; [|discriminate].
      injection D as D. rewrite D.
      destruct (list_eq_dec Byte.byte_eq_dec d (hbd c)) as [E|_]; [contradiction|].
      destruct (list_eq_dec Byte.byte_eq_dec d d) as [_|E]; [|contradiction].
      cbn [rest]. intros E. injection E as E. 
      apply (f_equal (fun l => nth_error l n)) in E.
      rewrite (upd_nth_same _ _ _ _ HS) in E. rewrite (upd_nth_same _ _ _ _ HS) in E. discriminate.
Qed.
