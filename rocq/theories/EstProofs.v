From Verif Require Import GoBase MessagesModel ConfigModel ConnModel ConfigProofs ConnSpec ConnBase ConnInv ConnUser EstModel EstSpec.
From Coq Require Import Arith Lia.
Open Scope nat_scope.

Lemma check_ok cfg g : check_interval cfg = Ok g -> usable cfg /\ config_after cfg (Some g).
Proof.
  intros E. unfold check_interval in E. destruct cfg as [g0|]; [|discriminate]. destruct (cf_hb g0) as [h|] eqn:H; [|discriminate].
  split; [exists g0, h; auto|]. intros g1 h1 [= <-] H1. rewrite H in H1. injection H1 as <-.
  destruct (hb_interval h =? 0)%Z eqn:I; injection E as <-.
  - do 2 eexists. split; [reflexivity|]. cbn. repeat split.
  - exists g0, h. repeat split; auto.
Qed.
Lemma check_panic cfg p : check_interval cfg = Panic p -> p = PNil /\ ~ usable cfg.
Proof.
  unfold check_interval. destruct cfg as [g|].
  - destruct (cf_hb g) as [h|] eqn:H; [destruct (_ =? _)%Z; discriminate|]. intros [= <-]. split; [reflexivity|].
    intros (g' & h' & [= <-] & E). congruence.
  - intros [= <-]. split; [reflexivity|]. intros (g' & h' & E & _). discriminate.
Qed.
Lemma check_no_err cfg e : check_interval cfg <> Err e.
Proof. unfold check_interval. destruct cfg as [g|]; [|discriminate]. destruct (cf_hb g); [destruct (_ =? _)%Z|]; discriminate. Qed.
Lemma check_usable cfg : usable cfg -> exists g, check_interval cfg = Ok g.
Proof. intros (g & h & -> & H). unfold check_interval. rewrite H. destruct (_ =? _)%Z; eauto. Qed.

Lemma net_known net n : netMap net = Some n -> known_network net.
Proof.
  unfold netMap, known_network. destruct (list_eq_dec _ net s_m3ua) as [->|]; [now left|].
  destruct (list_eq_dec _ net (s_m3ua ++ [x34])) as [->|]; [now right; left|].
  destruct (list_eq_dec _ net (s_m3ua ++ [x36])) as [->|]; [now right; right|]. discriminate.
Qed.
Lemma net_unknown net : netMap net = None -> ~ known_network net.
Proof. intros E [->|[->| ->]]; vm_compute in E; discriminate. Qed.

(** the outcome after GetStatus *)
Lemma from_status_spec m g calls status ls e : from_status m g calls status ls = Some e ->
  e_cfg e = Some g /\
  match status with
  | None => e_calls e = calls ++ [CStatus None] /\ e_out e = OError XStatus
  | Some o => exists c, run (start m g o) ls = Some c /\
      match e_out e with
      | OPanic p => crash c = Some p /\ e_calls e = calls ++ [CStatus (Some o)]
      | OConn c' => c' = c /\ crash c = None /\ dial c = DOk /\ e_calls e = calls ++ [CStatus (Some o)]
      | OWaits c' => c' = c /\ crash c = None /\ dial c = DWait /\ e_calls e = calls ++ [CStatus (Some o)]
      | OError x => ((x = XFailed /\ dial c = DFailed) \/ (x = XTimeout /\ dial c = DTimeout)) /\ crash c = None /\
                    e_calls e = calls ++ [CStatus (Some o); CClose]
      end
  end.
Proof.
  unfold from_status. destruct status as [o|].
  - destruct (run (start m g o) ls) as [c|]; cbn [option_map]; [|discriminate]. intros [= <-]. unfold waited.
    destruct (crash c) as [p|] eqn:C; [cbn; split; [reflexivity|]; exists c; auto|].
    destruct (dial c) eqn:D; cbn; (split; [reflexivity|]); exists c; rewrite <- ?app_assoc; auto 6.
  - intros [= <-]. cbn. auto.
Qed.


Lemma dial_cases net cfg sctp status ls e : Dial net cfg sctp status ls = Some e ->
  (~ usable cfg /\ e = mkEst cfg [] (OPanic PNil)) \/
  (exists g, check_interval cfg = Ok g /\ ~ known_network net /\ e = mkEst (Some g) [] (OError XNet)) \/
  (exists g n, check_interval cfg = Ok g /\ netMap net = Some n /\
     ((sctp = false /\ e = mkEst (Some g) [CDial n false] (OError XSctp)) \/
      (sctp = true /\ from_status Client g [CDial n true] status ls = Some e))).
Proof.
  unfold Dial. destruct (check_interval cfg) as [g| |p] eqn:C.
  - destruct (netMap net) as [n|] eqn:N.
    + intros E. right. right. exists g, n. split; [reflexivity|]. split; [reflexivity|]. destruct sctp; [right; auto|left]. injection E as <-. auto.
    + intros [= <-]. right. left. exists g. split; [reflexivity|]. split; [now apply net_unknown|reflexivity].
  - discriminate.
  - intros [= <-]. left. destruct (check_panic _ _ C) as (-> & U). auto.
Qed.
Lemma accept_cases cfg sctp status ls e : Accept cfg sctp status ls = Some e ->
  (~ usable cfg /\ e = mkEst cfg [] (OPanic PNil)) \/
  (exists g, check_interval cfg = Ok g /\
     ((sctp = false /\ e = mkEst (Some g) [CAccept false] (OError XSctp)) \/
      (sctp = true /\ from_status Server g [CAccept true] status ls = Some e))).
Proof.
  unfold Accept. destruct (check_interval cfg) as [g| |p] eqn:C.
  - intros E. right. exists g. split; [reflexivity|]. destruct sctp; [right; auto|left]. injection E as <-. auto.
  - discriminate.
  - intros [= <-]. left. destruct (check_panic _ _ C) as (-> & U). auto.
Qed.

(** ** Results *)
Lemma run_static m g o ls c : run (start m g o) ls = Some c -> reachable c /\ mode c = m /\ cfg c = g.
Proof.
  intros R. split; [exists m, g, o, ls; exact R|]. apply static_run in R. destruct R as (A & B & _). auto.
Qed.

Lemma dial_conn net cfg_ sctp status ls e c : Dial net cfg_ sctp status ls = Some e -> e_out e = OConn c ->
  known_network net /\ usable cfg_ /\ sctp = true /\ (exists o, status = Some o) /\ e_cfg e = Some (cfg c) /\ mode c = Client /\
  reachable c /\ dial c = DOk.
Proof.
  intros D O. destruct (dial_cases _ _ _ _ _ _ D) as [(_ & ->)|[(g & _ & _ & ->)|(g & n & C & N & [(_ & ->)|(S & F)])]]; try discriminate O.
  destruct (from_status_spec _ _ _ _ _ _ F) as (EC & SP). destruct status as [o|]; [|destruct SP as (_ & X); congruence].
  destruct SP as (c0 & R & SP). rewrite O in SP. destruct SP as (-> & _ & DO & _). destruct (run_static _ _ _ _ _ R) as (A & B & ->).
  destruct (check_ok _ _ C) as (U & _). pose proof (net_known _ _ N). eauto 10.
Qed.
Lemma accept_conn cfg_ sctp status ls e c : Accept cfg_ sctp status ls = Some e -> e_out e = OConn c ->
  usable cfg_ /\ sctp = true /\ (exists o, status = Some o) /\ e_cfg e = Some (cfg c) /\ mode c = Server /\ reachable c /\ dial c = DOk.
Proof.
  intros D O. destruct (accept_cases _ _ _ _ _ D) as [(_ & ->)|(g & C & [(_ & ->)|(S & F)])]; try discriminate O.
  destruct (from_status_spec _ _ _ _ _ _ F) as (EC & SP). destruct status as [o|]; [|destruct SP as (_ & X); congruence].
  destruct SP as (c0 & R & SP). rewrite O in SP. destruct SP as (-> & _ & DO & _). destruct (run_static _ _ _ _ _ R) as (A & B & ->).
  destruct (check_ok _ _ C) as (U & _). eauto 10.
Qed.

Lemma from_status_leak m g calls status ls e : (forall x, In x calls -> x <> CClose) ->
  (exists n, In (CDial n true) calls) \/ In (CAccept true) calls ->
  from_status m g calls status ls = Some e -> (leaked e <-> status = None).
Proof.
  intros NC AS F. destruct (from_status_spec _ _ _ _ _ _ F) as (_ & SP). split.
  - intros (_ & (x & X) & L). destruct status as [o|]; [|reflexivity]. destruct SP as (c & _ & SP). rewrite X in SP.
    destruct SP as (_ & _ & E). exfalso. apply L. rewrite E. apply in_or_app. right. right. now left.
  - intros ->. destruct SP as (E & O). split; [|split; [eauto|]].
    + unfold associated. rewrite E. destruct AS as [(n & A)|A]; [left; exists n|right]; apply in_or_app; auto.
    + rewrite E. intros H. apply in_app_or in H. destruct H as [H|[H|[]]]; [exact (NC _ H eq_refl)|discriminate H].
Qed.
Lemma dial_leak net cfg_ sctp status ls e : Dial net cfg_ sctp status ls = Some e ->
  (leaked e <-> usable cfg_ /\ known_network net /\ sctp = true /\ status = None).
Proof.
  intros D. destruct (dial_cases _ _ _ _ _ _ D) as [(U & ->)|[(g & C & N & ->)|(g & n & C & N & [(S & ->)|(S & F)])]].
  - split; [|tauto]. intros ([(n & [])|[]] & _).
  - split; [|tauto]. intros ([(n & [])|[]] & _).
  - subst. split; [|intros (_ & _ & X & _); discriminate]. intros ([(m & [X|[]])|[X|[]]] & _); discriminate.
  - subst. rewrite (from_status_leak _ _ _ _ _ _) with (3 := F).
    + destruct (check_ok _ _ C) as (U & _). pose proof (net_known _ _ N). tauto.
    + intros x [<-|[]]. discriminate.
    + left. exists n. now left.
Qed.
Lemma accept_leak cfg_ sctp status ls e : Accept cfg_ sctp status ls = Some e -> (leaked e <-> usable cfg_ /\ sctp = true /\ status = None).
Proof.
  intros D. destruct (accept_cases _ _ _ _ _ D) as [(U & ->)|(g & C & [(S & ->)|(S & F)])].
  - split; [|tauto]. intros ([(n & [])|[]] & _).
  - subst. split; [|intros (_ & X & _); discriminate]. intros ([(m & [X|[]])|[X|[]]] & _); discriminate.
  - subst. rewrite (from_status_leak _ _ _ _ _ _) with (3 := F).
    + destruct (check_ok _ _ C) as (U & _). tauto.
    + intros x [<-|[]]. discriminate.
    + right. now left.
Qed.

Lemma from_status_cfg m g calls status ls e : from_status m g calls status ls = Some e -> e_cfg e = Some g.
Proof. intros F. now destruct (from_status_spec _ _ _ _ _ _ F). Qed.
Lemma dial_config net cfg_ sctp status ls e : Dial net cfg_ sctp status ls = Some e -> config_after cfg_ (e_cfg e).
Proof.
  intros D. destruct (dial_cases _ _ _ _ _ _ D) as [(U & ->)|[(g & C & N & ->)|(g & n & C & N & [(S & ->)|(S & F)])]].
  - intros g h E H. exfalso. apply U. exists g, h. auto.
  - apply (check_ok _ _ C).
  - apply (check_ok _ _ C).
  - rewrite (from_status_cfg _ _ _ _ _ _ F). apply (check_ok _ _ C).
Qed.
Lemma accept_config cfg_ sctp status ls e : Accept cfg_ sctp status ls = Some e -> config_after cfg_ (e_cfg e).
Proof.
  intros D. destruct (accept_cases _ _ _ _ _ D) as [(U & ->)|(g & C & [(S & ->)|(S & F)])].
  - intros g h E H. exfalso. apply U. exists g, h. auto.
  - apply (check_ok _ _ C).
  - rewrite (from_status_cfg _ _ _ _ _ _ F). apply (check_ok _ _ C).
Qed.

(** every outcome before the association *)
Lemma dial_early net cfg_ sctp status ls : 
  (~ usable cfg_ -> Dial net cfg_ sctp status ls = Some (mkEst cfg_ [] (OPanic PNil))) /\
  (usable cfg_ -> ~ known_network net -> exists g, Dial net cfg_ sctp status ls = Some (mkEst (Some g) [] (OError XNet))).
Proof.
  split.
  - intros U. unfold Dial. destruct (check_interval cfg_) as [g|x|p] eqn:C.
    + exfalso. apply U. apply (check_ok _ _ C).
    + exfalso. exact (check_no_err _ _ C).
    + now destruct (check_panic _ _ C) as (-> & _).
  - intros U N. destruct (check_usable _ U) as (g & C). exists g. unfold Dial. rewrite C.
    destruct (netMap net) as [n|] eqn:E; [exfalso; apply N; now apply net_known in E|reflexivity].
Qed.
Lemma listen_any net cfg_ sctp : known_network net -> exists n, Listen net cfg_ sctp = ([CListen n sctp], if sctp then inl cfg_ else inr XSctp).
Proof.
  intros N. unfold Listen. destruct (netMap net) as [n|] eqn:E; [|exfalso; exact (net_unknown _ E N)]. exists n. now destruct sctp.
Qed.
Lemma accept_early cfg_ sctp status ls : ~ usable cfg_ -> Accept cfg_ sctp status ls = Some (mkEst cfg_ [] (OPanic PNil)).
Proof.
  intros U. unfold Accept. destruct (check_interval cfg_) as [g|x|p] eqn:C.
  - exfalso. apply U. apply (check_ok _ _ C).
  - exfalso. exact (check_no_err _ _ C).
  - now destruct (check_panic _ _ C) as (-> & _).
Qed.

(** ** Names, calls and errors *)
Lemma net_name net n : netMap net = Some n -> sctp_name net n.
Proof. intros H. apply netMap_spec in H. destruct H as (s & [<-|[<-|[<-|[]]]] & -> & ->); unfold sctp_name; cbn; auto. Qed.
Lemma listen_spec net cfg sctp :
  (~ known_network net /\ Listen net cfg sctp = ([], inr XNet)) \/
  (exists n, sctp_name net n /\ Listen net cfg sctp = ([CListen n sctp], if sctp then inl cfg else inr XSctp)).
Proof.
  unfold Listen. destruct (netMap net) as [n|] eqn:N; [right; exists n; split; [now apply net_name|now destruct sctp]|left; split; [now apply net_unknown|reflexivity]].
Qed.
Lemma from_status_calls m g calls status ls e : from_status m g calls status ls = Some e ->
  exists r, e_calls e = calls ++ CStatus status :: r /\ (r = [] \/ (r = [CClose] /\ exists x, e_out e = OError x)).
Proof.
  intros F. destruct (from_status_spec _ _ _ _ _ _ F) as (_ & SP). destruct status as [o|].
  - destruct SP as (c & _ & SP). destruct (e_out e); [exists []|exists [CClose]|exists []|exists []].
    + destruct SP as (_ & ->). auto.
    + destruct SP as (_ & _ & ->). eauto.
    + destruct SP as (_ & _ & _ & ->). auto.
    + destruct SP as (_ & _ & _ & ->). auto.
  - destruct SP as (-> & _). exists []. auto.
Qed.
Lemma dial_calls net cfg sctp status ls e : Dial net cfg sctp status ls = Some e -> e_calls e <> [] ->
  exists n r, sctp_name net n /\ e_calls e = CDial n sctp :: r /\
    (r = [] \/ (sctp = true /\ r = [CStatus status]) \/ (sctp = true /\ r = [CStatus status; CClose] /\ exists x, e_out e = OError x)).
Proof.
  intros D N. destruct (dial_cases _ _ _ _ _ _ D) as [(_ & ->)|[(g & _ & _ & ->)|(g & n & _ & Nn & [(-> & ->)|(-> & F)])]]; try (now cbn in N).
  - exists n, []. split; [now apply net_name|]. auto.
  - destruct (from_status_calls _ _ _ _ _ _ F) as (r & E & R). exists n, (CStatus status :: r). split; [now apply net_name|]. split; [exact E|].
    right. destruct R as [->|(-> & X)]; auto.
Qed.
Lemma from_status_meaning m g calls status ls e x : from_status m g calls status ls = Some e -> e_out e = OError x ->
  meaning x true true status (match status with Some o => run (start m g o) ls | None => None end).
Proof.
  intros F X. destruct (from_status_spec _ _ _ _ _ _ F) as (_ & SP). destruct status as [o|].
  - destruct SP as (c & R & SP). rewrite X in SP. destruct SP as ([(-> & D)|(-> & D)] & C & _); cbn [meaning]; rewrite R; eauto 8.
  - destruct SP as (_ & O). assert (x = XStatus) as -> by congruence. cbn. auto.
Qed.
Lemma dial_errors net cfg sctp status ls e x : Dial net cfg sctp status ls = Some e -> e_out e = OError x ->
  exists g b, check_interval cfg = Ok g /\ (b = true <-> known_network net) /\
    meaning x b sctp status (match status with Some o => run (start Client g o) ls | None => None end).
Proof.
  intros D X. destruct (dial_cases _ _ _ _ _ _ D) as [(_ & ->)|[(g & C & N & ->)|(g & n & C & N & [(-> & ->)|(-> & F)])]]; try discriminate X.
  - injection X as <-. exists g, false. split; [exact C|]. split; [split; [discriminate|tauto]|reflexivity].
  - injection X as <-. exists g, true. split; [exact C|]. split; [split; [intros _; now apply net_known in N|reflexivity]|cbn; auto].
  - exists g, true. split; [exact C|]. split; [split; [intros _; now apply net_known in N|reflexivity]|]. eapply from_status_meaning; eauto.
Qed.
Lemma accept_errors cfg sctp status ls e x : Accept cfg sctp status ls = Some e -> e_out e = OError x ->
  exists g, check_interval cfg = Ok g /\ meaning x true sctp status (match status with Some o => run (start Server g o) ls | None => None end).
Proof.
  intros D X. destruct (accept_cases _ _ _ _ _ D) as [(_ & ->)|(g & C & [(-> & ->)|(-> & F)])]; try discriminate X.
  - injection X as <-. exists g. split; [exact C|cbn; auto].
  - exists g. split; [exact C|]. eapply from_status_meaning; eauto.
Qed.
Lemma accept_calls cfg sctp status ls e : Accept cfg sctp status ls = Some e -> e_calls e <> [] ->
  exists r, e_calls e = CAccept sctp :: r /\
    (r = [] \/ (sctp = true /\ r = [CStatus status]) \/ (sctp = true /\ r = [CStatus status; CClose] /\ exists x, e_out e = OError x)).
Proof.
  intros D N. destruct (accept_cases _ _ _ _ _ D) as [(_ & ->)|(g & _ & [(-> & ->)|(-> & F)])]; try (now cbn in N).
  - exists []. auto.
  - destruct (from_status_calls _ _ _ _ _ _ F) as (r & E & R). exists (CStatus status :: r). split; [exact E|].
    right. destruct R as [->|(-> & X)]; auto.
Qed.
(** a panic: the configuration, or one of the connection's goroutines *)
Lemma dial_panics net cfg sctp status ls e p : Dial net cfg sctp status ls = Some e \/ Accept cfg sctp status ls = Some e -> e_out e = OPanic p ->
  (~ usable cfg /\ p = PNil) \/ (exists c, reachable c /\ crash c = Some p).
Proof.
  intros D X.
  assert (G : forall m g calls, from_status m g calls status ls = Some e -> exists c, reachable c /\ crash c = Some p).
  { intros m g calls F. destruct (from_status_spec _ _ _ _ _ _ F) as (_ & SP). destruct status as [o|]; [|destruct SP; congruence].
    destruct SP as (c & R & SP). rewrite X in SP. exists c. split; [exists m, g, o, ls; exact R|tauto]. }
  destruct D as [D|D].
  - destruct (dial_cases _ _ _ _ _ _ D) as [(U & ->)|[(g & C & N & ->)|(g & n & C & N & [(-> & ->)|(-> & F)])]]; try discriminate X; [|right; eauto].
    injection X as <-. auto.
  - destruct (accept_cases _ _ _ _ _ D) as [(U & ->)|(g & C & [(-> & ->)|(-> & F)])]; try discriminate X; [|right; eauto].
    injection X as <-. auto.
Qed.
