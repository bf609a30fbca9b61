(** Reading the phone number off a credential on its way (C118).  The layout is that
    of [CredentialIssuance::to_bytes], aeonflux/src/credential.rs:226-242, and of
    [PhoneNumber::try_from_bytes], signal-credential/src/phone_number.rs:175-200. *)
From Verif Require Export Spec SpecCodec.

Fixpoint drop_zeros (l : bytes) : bytes :=
  match l with
  | b :: l' => if bz b =? 0 then drop_zeros l' else l
  | [] => []
  end.

(** In bytes 96 to 127 the last one that is not zero is the length of the number,
    which starts at byte 98. *)
Definition number_in (issuance : bytes) : bytes :=
  let w := field 96 32 issuance in
  match drop_zeros (rev w) with
  | c :: _ => firstn (Z.to_nat (bz c)) (skipn 2 w)
  | [] => []
  end.
