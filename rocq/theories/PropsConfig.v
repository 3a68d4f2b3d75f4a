(** Configuration and logging: C51, C52, C55, C56. *)
From Verif Require Import GoBase ParamsModel ConfigModel ConfigProofs LoggerModel LoggerProofs.
Open Scope nat_scope.

(** C51: Dial and Accept panic for every configuration without HeartbeatInfo (and for nil),
    whatever the network name. *)
Theorem C51_no_heartbeat_info : forall net c, (forall g, c = Some g -> cf_hb g = None) ->
  dial_prologue net c = Panic PNil /\ accept_prologue c = Panic PNil.
Proof. exact prologue_panics. Qed.
(** NewConfig followed by any setters: a panic exactly when EnableHeartbeat is not among them;
    otherwise the heartbeat ends up enabled iff its last interval is not zero. *)
Theorem C51_new_config : forall opc dpc si ni mp sls l net,
  if existsb is_hb l
  then exists g, accept_prologue (Some (built opc dpc si ni mp sls l)) = Ok g /\
         exists i t, last_hb l None = Some (i, t) /\ cf_hb g = Some (mkHbInfo (negb (i =? 0)%Z) i t default_beat)
  else dial_prologue net (Some (built opc dpc si ni mp sls l)) = Panic PNil /\
       accept_prologue (Some (built opc dpc si ni mp sls l)) = Panic PNil.
Proof. exact built_prologue. Qed.
(** With HeartbeatInfo: no panic, and only Enabled can change. *)
Theorem C51_with_heartbeat_info : forall g h, cf_hb g = Some h ->
  exists g', accept_prologue (Some g) = Ok g' /\
    cf_hb g' = Some (with_enabled (hb_enabled h && negb (hb_interval h =? 0)%Z) h) /\
    cf_aspid g' = cf_aspid g /\ cf_tmt g' = cf_tmt g /\ cf_na g' = cf_na g /\ cf_rc g' = cf_rc g /\ cf_corr g' = cf_corr g /\
    cf_opc g' = cf_opc g /\ cf_dpc g' = cf_dpc g /\ cf_si g' = cf_si g /\ cf_ni g' = cf_ni g /\ cf_mp g' = cf_mp g /\ cf_sls g' = cf_sls g /\
    forall net, dial_prologue net (Some g) = Ok (option_map (fun n => (n, g')) (netMap net)).
Proof. exact prologue_ok. Qed.
Print Assumptions C51_no_heartbeat_info.
Print Assumptions C51_new_config.
Print Assumptions C51_with_heartbeat_info.

Example C51_ex1 : dial_prologue s_m3ua (Some (built 1 2 x03 x00 x00 x01 [SAsp 7; SNetwork 0; SRouting [1%N; 2%N]])) = Panic PNil.
Proof. exact (proj1 (C51_new_config 1 2 x03 x00 x00 x01 [SAsp 7; SNetwork 0; SRouting [1%N; 2%N]] s_m3ua)). Qed.
Example C51_ex2 : exists g, accept_prologue (Some (built 1 2 x03 x00 x00 x01 [SHeartbeat 5 9; SAsp 7; SHeartbeat 0 3])) = Ok g /\
  exists i t, last_hb [SHeartbeat 5 9; SAsp 7; SHeartbeat 0 3] None = Some (i, t) /\ cf_hb g = Some (mkHbInfo (negb (i =? 0)%Z) i t default_beat).
Proof. exact (C51_new_config 1 2 x03 x00 x00 x01 [SHeartbeat 5 9; SAsp 7; SHeartbeat 0 3] s_m3ua). Qed.

(** C56: Dial and Listen know exactly the networks m3ua, m3ua4 and m3ua6 and use sctp, sctp4, sctp6. *)
Theorem C56_networks : forall net r, netMap net = Some r <->
  exists suffix, In suffix [[]; [x34]; [x36]] /\ net = s_m3ua ++ suffix /\ r = s_sctp ++ suffix.
Proof. exact netMap_spec. Qed.
Print Assumptions C56_networks.
Example C56_ex : netMap [x6d;x33;x75;x61;x36] = Some [x73;x63;x74;x70;x36] /\ netMap [x6d;x33;x75] = None.
Proof. split; reflexivity. Qed.

(** C52: a call of EnableLogging is never finished, in any execution of any calls of the package. *)
Theorem C52_enable_never_returns : forall before after l f s,
  lrun lstart (before ++ Call (EnableLogging l f) :: after) = Some s -> Forall good (before ++ after) ->
  exists p, nth_error (procs s) (length (calls before)) = Some p /\ p <> [].
Proof. exact enable_never_returns. Qed.
(** From the moment it has the mutex no goroutine does anything any more: the only possible
    continuations are further calls, none of which makes a step. *)
Theorem C52_everything_blocks : forall s i p ls s', LI s -> nth_error (procs s) i = Some p -> stage2 p ->
  Forall good ls -> lrun s ls = Some s' ->
  procs s' = procs s ++ calls ls /\ printed_to s' = printed_to s /\ cur s' = cur s /\ ls = map Call (calls ls).
Proof. intros s i p ls s' I N S G H. exact (proj2 (stuck_run ls s s' (stage2_stuck s i p I N S) G H)). Qed.
(** Without EnableLogging: every schedule is finite and only ends when all calls have returned. *)
Theorem C52_others_return : forall ls s, Forall goodp ls -> lrun lstart ls = Some s ->
  forall is s', lrun s (map Step is) = Some s' ->
  length is <= work s /\ (Forall (fun p => p = []) (procs s') \/ exists i s'', lstep s' i = Some s'').
Proof. intros ls s G H. destruct (plain_reachable ls s G H) as [I F]. exact (plain_inevitable s I F). Qed.
Theorem C52_others_can_return : forall ls s, Forall goodp ls -> lrun lstart ls = Some s ->
  exists is s', lrun s (map Step is) = Some s' /\ Forall (fun p => p = []) (procs s').
Proof. intros ls s G H. destruct (plain_reachable ls s G H) as [I F]. exact (plain_all_finish (work s) s (le_n _) I F). Qed.
Print Assumptions C52_enable_never_returns.
Print Assumptions C52_everything_blocks.
Print Assumptions C52_others_return.
Print Assumptions C52_others_can_return.

Example C52_ex : exists s, lrun lstart [Call logf; Step 0; Call (EnableLogging (Some 3) 9); Step 0; Step 0; Step 1; Call logf] = Some s /\
  nth_error (procs s) 1 = Some [Lock; Assign 3; Unlock; Unlock] /\ lstep s 2 = None /\ lstep s 1 = None.
Proof. eexists. split; [vm_compute; reflexivity|repeat split]. Qed.
Example C52_ex_stage2 : forall s, lrun lstart [Call logf; Step 0; Call (EnableLogging (Some 3) 9); Step 0; Step 0; Step 1] = Some s ->
  LI s /\ exists p, nth_error (procs s) 1 = Some p /\ stage2 p.
Proof.
  intros s H. assert (C : is_call (EnableLogging (Some 3) 9)) by (right; left; exists (Some 3), 9; reflexivity).
  assert (L : is_call logf) by (right; right; right; reflexivity). split.
  - refine (LI_run _ _ _ LI_start _ H). repeat apply Forall_cons; try apply Forall_nil; cbn [good]; trivial.
  - cbn in H. injection H as <-. eexists. split; [reflexivity|]. exists 3. reflexivity.
Qed.
Example C52_ex_plain : exists s, lrun lstart [Call logf; Step 0; Call (SetLogger (Some 3) 9); Step 0; Call DisableLogging] = Some s /\
  lstep s 1 = None /\ exists s', lstep s 0 = Some s'.
Proof. eexists. split; [vm_compute; reflexivity|]. split; [reflexivity|eexists; reflexivity]. Qed.

(** C55: DisableLogging silences the logger object itself, for ever: it stays silenced in every
    continuation, also after SetLogger has been called with that same logger. *)
Theorem C55_disabled_forever : forall ls s s' x, lrun s ls = Some s' -> In x (discarded s) -> In x (discarded s').
Proof. exact discarded_forever. Qed.
Theorem C55_set_again_refuted :
  exists s, lrun lstart [Call (SetLogger (Some 3) 9); Step 0; Step 0; Step 0;
                         Call DisableLogging; Step 1; Step 1; Step 1;
                         Call (SetLogger (Some 3) 9); Step 2; Step 2; Step 2;
                         Call logf; Step 3; Step 3; Step 3] = Some s /\
    cur s = 3 /\ In (cur s) (discarded s) /\ printed_to s = [3] /\ Forall (fun p => p = []) (procs s).
Proof. eexists. split; [vm_compute; reflexivity|]. repeat split; cbn; auto. Qed.
Print Assumptions C55_disabled_forever.
Print Assumptions C55_set_again_refuted.
