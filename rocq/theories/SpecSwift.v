(** What the statements about the Swift wrapper mean. *)
From Verif Require Export ModelSwift.

(** The array fits the address space of the machine. *)
Definition fits (E : Ext) (b : bytes) : Prop := Z.of_nat (List.length b) < 2 ^ usize_bits E.

(** The issuer with these bytes accepts the presentation with these bytes. *)
Definition accepts (E : Ext) (issuer presentation : bytes) : Prop :=
  exists (i : Issuer E) p v, signal_issuer_from_bytes issuer = Ok i /\
    signal_presentation_from_bytes presentation = Ok p /\ signal_verify i p = Ok v.

(** The user obtains a credential. *)
Definition obtains (E : Ext) (number params issuer_params issuance : bytes) : Prop :=
  exists (sp : SystemParameters E) ip iss (u u' : SignalUser E),
    system_parameters_from_bytes params = Ok sp /\ public_key_from_bytes issuer_params = Ok ip /\
    issuance_from_bytes issuance = Ok iss /\ number <> [] /\ signal_user_new sp ip None number = Ok u /\
    signal_obtain_finish u (Some iss) = (u', Ok tt).

(** Freed memory keeps what it held. *)
Definition unchanged : reuse_of_freed := fun _ c i => nth i c x00.

(** What is read from a block which held [c]. *)
Definition found (reuse : reuse_of_freed) (id : nat) (c : bytes) : bytes :=
  map (reuse id c) (seq 0 (List.length c)).
