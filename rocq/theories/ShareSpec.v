(** What concurrent senders can rely on *)
From Verif Require Import GoBase ParamsModel MessagesModel ConfigModel ConnModel ShareModel.
Open Scope nat_scope.

(** the parameters a send refers to, in the order of its message *)
Definition params_of (s : send) : list nat := refs_over (s_refs s) (marshal_order (s_kind s)).
(** the Length field is the length of the parameter *)
Definition right_length (p : param) : Prop := p_length p = (N.of_nat (4 + length (p_data p)) mod 65536)%N.

(** the initial memory fits the sends: the message of a constructor call is fresh, the parameters of an existing one have their Length *)
Definition fits_memory (m : mem) (ss : list send) : Prop :=
  forall s, In s ss ->
    (s_new s = true -> msgs m (s_msg s) = mkHeader x01 x00 (kind_class (s_kind s)) (kind_type (s_kind s)) 0 []) /\
    (s_new s = false -> forall a, In a (params_of s) -> right_length (cells m a)).

(** two sends of the same message are sends of the same existing message *)
Definition consistent (ss : list send) : Prop :=
  forall i j s s', nth_error ss i = Some s -> nth_error ss j = Some s' -> i <> j -> s_msg s = s_msg s' ->
    s_new s = false /\ s_new s' = false /\ s_kind s = s_kind s' /\ (forall f, s_refs s f = s_refs s' f).
(** no other goroutine sends the message of the i-th *)
Definition own_message (ss : list send) (i : nat) : Prop :=
  forall j s s', nth_error ss i = Some s -> nth_error ss j = Some s' -> s_msg s = s_msg s' -> j = i.

(** the message value the caller has in mind: that of the parameters before anybody sends *)
Definition meant (m : mem) (s : send) : m3ua :=
  Typed (if s_new s then new_msg (s_kind s) (deref (cells m) (s_refs s))
         else mkMsg (s_kind s) (msgs m (s_msg s)) (deref (cells m) (s_refs s))).

(** some interleaving of the goroutines leads to [y] *)
Definition can_reach (m : mem) (ss : list send) (y : sys) : Prop := exists is_, sys_run ss (sys0 m ss) is_ = Some y.

(** a packet that has some parameters of the meant one and zeros in place of the others *)
Definition gaps (ws vs : list (list byte)) : Prop := Forall2 (fun w v => v = w \/ v = zeros (length w)) ws vs.
Definition gapped (m : mem) (s : send) (b : list byte) : Prop :=
  exists m' head ws vs,
    m3_MarshalBinary (meant m s) = Ok (m', head ++ concat ws) /\ length head = 8 /\
    Forall2 (fun a w => MarshalBinary (SetLength (cells m a)) = Ok w) (params_of s) ws /\
    gaps ws vs /\ b = head ++ concat vs.

(** two goroutines are about to access the Length field of the same parameter, one of them writing *)
Definition next_op (y : sys) (i : nat) (o : op) : Prop := exists t k, nth_error (snd y) i = Some t /\ t_ops t = o :: k.
Definition length_race (y : sys) : Prop :=
  exists i j a, i <> j /\ next_op y i (OSet a) /\ (next_op y j (OSet a) \/ next_op y j (OPut a)).

(** the configuration [g] is at the addresses [a] *)
Definition config_at (m : mem) (g : config) (a : caddr) : Prop :=
  cf_na g = option_map (cells m) (ca_na a) /\ cf_rc g = option_map (cells m) (ca_rc a) /\ cf_corr g = option_map (cells m) (ca_corr a) /\
  cf_aspid g = option_map (cells m) (ca_aspid a) /\ cf_tmt g = option_map (cells m) (ca_tmt a).
(** two goroutines send with a common parameter *)
Definition sharing (ss : list send) : Prop :=
  exists i j s s' a, i <> j /\ nth_error ss i = Some s /\ nth_error ss j = Some s' /\ In a (params_of s) /\ In a (params_of s').


(** the messages of ConnModel *)
Definition call_msg (m : mem) (g : config) (k : call) : m3ua :=
  match k with
  | KUp => asp_up g
  | KUpAck => Typed (NewAspUpAck (cf_aspid g) None)
  | KAct => asp_active g
  | KActAck => Typed (NewAspActiveAck (cf_tmt g) (cf_rc g) None)
  | KInactAck => Typed (NewAspInactiveAck (cf_rc g) None)
  | KUnexp c p => Typed (NewError (Some (cells m c)) (cf_rc g) (cf_na g) (Some (cells m p)) None)
  | KWrite pd => pd_msg g (option_map (cells m) pd)
  end.

(** concurrent calls of the library with one configuration, each with the address of its message *)
Definition calls (a : caddr) (l : list (nat * call)) : list send := map (fun p => call_send a (fst p) (snd p)) l.
Definition fresh_messages (m : mem) (l : list (nat * call)) : Prop :=
  forall x k, In (x, k) l -> msgs m x = mkHeader x01 x00 (kind_class (call_kind k)) (kind_type (call_kind k)) 0 [].
