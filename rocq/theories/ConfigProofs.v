(** Proofs about ConfigModel.v *)
From Verif Require Import GoBase ParamsModel ConfigModel.
Open Scope nat_scope.

(** the documented way to build a configuration: NewConfig followed by setters *)
Inductive setter :=
| SHeartbeat (interval timer : Z) | SAsp (id : N) | STraffic (t : N) | SNetwork (na : N)
| SRouting (rcs : list N) | SCorr (id : N).
Definition apply_setter (s : setter) (c : config) : config :=
  match s with
  | SHeartbeat i t => EnableHeartbeat i t c
  | SAsp x => SetAspIdentifier x c | STraffic x => SetTrafficModeType x c
  | SNetwork x => SetNetworkAppearance x c | SRouting x => SetRoutingContexts x c | SCorr x => SetCorrelationID x c
  end.
Definition is_hb (s : setter) : bool := match s with SHeartbeat _ _ => true | _ => false end.
Definition built (opc dpc : N) (si ni mp sls : byte) (l : list setter) : config :=
  fold_left (fun c s => apply_setter s c) l (NewConfig opc dpc si ni mp sls).
(** the last value a kind of setter was given *)
Fixpoint last_hb (l : list setter) (d : option (Z * Z)) : option (Z * Z) :=
  match l with [] => d | SHeartbeat i t :: r => last_hb r (Some (i, t)) | _ :: r => last_hb r d end.

Definition with_enabled (b : bool) (h : hbinfo) : hbinfo := mkHbInfo b (hb_interval h) (hb_timer h) (hb_data h).

Lemma built_hb l : forall c, cf_hb (fold_left (fun c s => apply_setter s c) l c) =
  match last_hb l (option_map (fun h => (hb_interval h, hb_timer h)) (cf_hb c)) with
  | None => None
  | Some (i, t) => if existsb is_hb l then Some (mkHbInfo true i t default_beat) else cf_hb c
  end.
Proof.
  induction l as [|s r IH]; intros c; cbn [fold_left last_hb existsb].
  - destruct (cf_hb c) as [[e i t d]|]; reflexivity.
  - rewrite IH. destruct s; cbn [apply_setter is_hb orb cf_hb EnableHeartbeat SetAspIdentifier SetTrafficModeType
      SetNetworkAppearance SetRoutingContexts SetCorrelationID option_map NewHeartbeatInfo hb_interval hb_timer]; try reflexivity.
    destruct (existsb is_hb r) eqn:E; auto.
    assert (X : forall l d, existsb is_hb l = false -> last_hb l d = d).
    { clear. induction l as [|s l IH]; intros d H; auto. destruct s; cbn in *; try discriminate; auto. }
    rewrite X by auto. reflexivity.
Qed.

Lemma prologue_panics net c : (forall g, c = Some g -> cf_hb g = None) ->
  dial_prologue net c = Panic PNil /\ accept_prologue c = Panic PNil.
Proof.
  intros H. unfold dial_prologue, accept_prologue, check_interval. destruct c as [g|]; auto.
  rewrite (H g eq_refl). auto.
Qed.
Lemma prologue_ok g h : cf_hb g = Some h ->
  exists g', accept_prologue (Some g) = Ok g' /\
    cf_hb g' = Some (with_enabled (hb_enabled h && negb (hb_interval h =? 0)%Z) h) /\
    cf_aspid g' = cf_aspid g /\ cf_tmt g' = cf_tmt g /\ cf_na g' = cf_na g /\ cf_rc g' = cf_rc g /\ cf_corr g' = cf_corr g /\
    cf_opc g' = cf_opc g /\ cf_dpc g' = cf_dpc g /\ cf_si g' = cf_si g /\ cf_ni g' = cf_ni g /\ cf_mp g' = cf_mp g /\ cf_sls g' = cf_sls g /\
    forall net, dial_prologue net (Some g) = Ok (option_map (fun n => (n, g')) (netMap net)).
Proof.
  intros H. unfold dial_prologue, accept_prologue, check_interval. rewrite H.
  destruct (hb_interval h =? 0)%Z eqn:E; eexists; (split; [reflexivity|]); cbn.
  - rewrite andb_false_r. repeat split; auto. intros net. destruct (netMap net); reflexivity.
  - rewrite andb_true_r. repeat split; auto.
    + rewrite H. destruct h; reflexivity.
    + intros net. destruct (netMap net); reflexivity.
Qed.
Lemma built_prologue opc dpc si ni mp sls l net :
  if existsb is_hb l
  then exists g, accept_prologue (Some (built opc dpc si ni mp sls l)) = Ok g /\
         exists i t, last_hb l None = Some (i, t) /\ cf_hb g = Some (mkHbInfo (negb (i =? 0)%Z) i t default_beat)
  else dial_prologue net (Some (built opc dpc si ni mp sls l)) = Panic PNil /\
       accept_prologue (Some (built opc dpc si ni mp sls l)) = Panic PNil.
Proof.
  pose proof (built_hb l (NewConfig opc dpc si ni mp sls)) as B. cbn [cf_hb NewConfig option_map] in B.
  assert (X : forall l d, existsb is_hb l = false -> last_hb l d = d).
  { clear. induction l as [|s l IH]; intros d H; auto. destruct s; cbn in *; try discriminate; auto. }
  assert (Y : forall l d, existsb is_hb l = true -> last_hb l d <> None).
  { clear - X. induction l as [|s l IH]; intros d H; [discriminate|]. destruct s; cbn in *; auto.
    destruct (existsb is_hb l) eqn:E; auto. rewrite X by auto. discriminate. }
  destruct (existsb is_hb l) eqn:E.
  - specialize (Y l None E). destruct (last_hb l None) as [[i t]|] eqn:L; [|contradiction].
    destruct (prologue_ok _ _ B) as (g & A1 & A2 & _). exists g. split; auto. exists i, t. split; auto.
  - rewrite X in B by auto. apply prologue_panics. intros g Hg. inversion Hg; subst. exact B.
Qed.

(** network names *)
Lemma netMap_spec net r : netMap net = Some r <->
  exists suffix, In suffix [[]; [x34]; [x36]] /\ net = s_m3ua ++ suffix /\ r = s_sctp ++ suffix.
Proof.
  unfold netMap. split.
  - repeat (destruct (list_eq_dec _ _ _) as [E|_]); intros H; inversion H; subst.
    + exists []. cbn. auto. + exists [x34]. cbn. auto. + exists [x36]. cbn. auto.
  - intros (s & Hs & -> & ->). cbn in Hs. destruct Hs as [<-|[<-|[<-|[]]]]; reflexivity.
Qed.
