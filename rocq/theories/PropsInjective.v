(** C75: the bytes of MarshalVT determine the message.  Corollaries of the round trip (C18) and of
    EqualVT being an equivalence (C31); the code is that of Marshal.v (/repo/features/marshal),
    Unmarshal.v (/repo/features/unmarshal) and Equal.v (/repo/features/equal). *)
From Coq Require Import ZArith List Bool Lia.
From Verif Require Import Base Schema Value Marshal Unmarshal Equal Typing RecordSpec MsgSpec DecodeSpec ContentSpec EqualSpec RoundTripTop WithinFacts Ex
  PropsMarshal PropsUnmarshal PropsRoundTrip PropsEqual.
Import ListNotations.
Open Scope Z_scope.

(** Two messages with the same bytes, whichever of the two orders of members was used for each,
    are EqualVT. *)
Theorem C75_injective : forall sc o s1 s2 m a b bs,
  wf_schema sc = true -> up_enc_ok sc -> up_dec_ok sc -> up_eq_ok sc -> md_foreign (md_of sc m) = false ->
  wt_msg sc m a -> wt_msg sc m b -> nan_free sc m a -> nan_free sc m b ->
  decodable sc (fun m x y => up_eq (sc_up sc) m x y = true) m a -> decodable sc (fun m x y => up_eq (sc_up sc) m x y = true) m b ->
  MarshalVT sc s1 m a = Ok (Some bs) -> MarshalVT sc s2 m b = Ok (Some bs) -> small bs ->
  EqualVT sc o m a b = true.
Proof.
  intros sc o s1 s2 m a b bs W UE UD U F Ta Tb Na Nb Da Db Ma Mb S.
  destruct (C18_equal sc (fun _ => false) s1 m a bs W UE UD U F Ta Na Da Ma S) as (v & A & Ea).
  destruct (C18_equal sc (fun _ => false) s2 m b bs W UE UD U F Tb Nb Db Mb S) as (v' & B & Eb).
  unfold accepts in A, B. rewrite A in B. injection B as <-.
  assert (wt_msg sc m v) as T by exact (decoded_wt sc _ s1 m a bs v W UE UD F Ta Da Ma S A).
  rewrite C31_symmetric in Eb by (auto; now right).
  apply (C31_transitive sc (fun _ => false) (fun _ => false) o m a v b W U F (or_intror Ta) (or_intror T) (or_intror Tb) (proj1 C31_closed) (proj1 C31_closed)); auto.
  intros p X. discriminate X.
Qed.
Print Assumptions C75_injective.

(** Messages that EqualVT tells apart have different bytes. *)
Theorem C75_different : forall sc o s1 s2 m a b b1 b2,
  wf_schema sc = true -> up_enc_ok sc -> up_dec_ok sc -> up_eq_ok sc -> md_foreign (md_of sc m) = false ->
  wt_msg sc m a -> wt_msg sc m b -> nan_free sc m a -> nan_free sc m b ->
  decodable sc (fun m x y => up_eq (sc_up sc) m x y = true) m a -> decodable sc (fun m x y => up_eq (sc_up sc) m x y = true) m b ->
  MarshalVT sc s1 m a = Ok (Some b1) -> MarshalVT sc s2 m b = Ok (Some b2) -> small b1 ->
  EqualVT sc o m a b = false -> b1 <> b2.
Proof.
  intros sc o s1 s2 m a b b1 b2 W UE UD U F Ta Tb Na Nb Da Db Ma Mb S E <-.
  rewrite (C75_injective sc o s1 s2 m a b b1) in E by assumption. discriminate E.
Qed.
Print Assumptions C75_different.

(** With NaNs: the contents of both are, bit by bit, those of one message, except that -0.0 without
    presence counts as 0.0. *)
Theorem C75_bits : forall sc P s1 s2 m a b bs,
  wf_schema sc = true -> up_enc_ok sc -> up_dec_ok sc -> md_foreign (md_of sc m) = false ->
  wt_msg sc m a -> wt_msg sc m b -> decodable sc P m a -> decodable sc P m b ->
  MarshalVT sc s1 m a = Ok (Some bs) -> MarshalVT sc s2 m b = Ok (Some bs) -> small bs ->
  exists v, same_msg sc same_bits zero_normal P m a v /\ same_msg sc same_bits zero_normal P m b v.
Proof.
  intros sc P s1 s2 m a b bs W UE UD F Ta Tb Da Db Ma Mb S.
  destruct (C18_round_trip sc P s1 m a bs W UE UD F Ta Da Ma S) as (v & A & Ea).
  destruct (C18_round_trip sc P s2 m b bs W UE UD F Tb Db Mb S) as (v' & B & Eb).
  unfold accepts in A, B. rewrite A in B. injection B as <-. exists v. split; assumption.
Qed.
Print Assumptions C75_bits.

(** Two messages with the same bytes that differ in Go: a nil element of a list of messages and an
    empty one. *)
Definition ex_nil : val := VMsg
  [ VInt 0; VNil; VNil; VList [VNil]; VNil; VNil; VInt 0; VNil; VNil; VNil ] [] [].
Definition ex_empty : val := VMsg
  [ VInt 0; VNil; VNil; VList [new_msg (md_of ex_sc 0)]; VNil; VNil; VInt 0; VNil; VNil; VNil ] [] [].
Example C75_nonvacuous : exists bs, ex_nil <> ex_empty
  /\ wt_msg ex_sc 0 ex_nil /\ wt_msg ex_sc 0 ex_empty /\ nan_free ex_sc 0 ex_nil /\ nan_free ex_sc 0 ex_empty
  /\ decodable ex_sc (fun m x y => up_eq (sc_up ex_sc) m x y = true) 0 ex_nil
  /\ decodable ex_sc (fun m x y => up_eq (sc_up ex_sc) m x y = true) 0 ex_empty
  /\ MarshalVT ex_sc false 0 ex_nil = Ok (Some bs) /\ MarshalVT ex_sc true 0 ex_empty = Ok (Some bs) /\ small bs /\ bs <> [].
Proof.
  eexists. split; [discriminate|]. split; [now apply (check_ok ex_sc 5)|]. split; [now apply (check_ok ex_sc 5)|].
  split; [apply (free_b_ok ex_sc 5); reflexivity|]. split; [apply (free_b_ok ex_sc 5); reflexivity|].
  split; [apply ex_dec_eq; apply (decodable_b_ok ex_sc ex_foreign ex_unknown _ (fun m x _ => ex_foreign_ok m x) ex_unknown_ok 5); reflexivity|].
  split; [apply ex_dec_eq; apply (decodable_b_ok ex_sc ex_foreign ex_unknown _ (fun m x _ => ex_foreign_ok m x) ex_unknown_ok 5); reflexivity|].
  split; [vm_compute; reflexivity|]. split; [vm_compute; reflexivity|]. split; [vm_compute; reflexivity|discriminate].
Qed.
(** And two that are told apart. *)
Example C75_different_nonvacuous :
  EqualVT ex_sc (fun _ => false) 0 ex_nil ex_v = false /\ EqualVT ex_sc (fun _ => true) 0 ex_nil ex_empty = true.
Proof. split; vm_compute; reflexivity. Qed.
