(** Swift computes the same in every build (C115). *)
From Verif Require Import SpecFfi SpecBuilds PropertiesBuilds Toy PropertiesIssue PropertiesFfi PropertiesCalls ModelFfi ModelSwift.
Local Open Scope Z_scope.

Section swift_on.
  Context {E E' : Ext} {f : point E -> point E'} (L : ExtLaws E) (L' : ExtLaws E') (M : same_crates E E' f).
  Lemma after_on {A} r r' (k k' : buf_t -> memory -> rng -> sw_result A) :
    r' = r -> (forall b m os, k' b m os = k b m os) -> sw_after r' k' = sw_after r k.
  Proof. intros -> H. unfold sw_after. destruct r; try reflexivity. apply H. Qed.
  Lemma read_on {A} reuse m b (k k' : bytes -> sw_result A) :
    (forall d, k' d = k d) -> sw_read reuse m b k' = sw_read reuse m b k.
  Proof. intros H. unfold sw_read. destruct (sw_array reuse m b); [apply H|reflexivity]. Qed.
  Lemma whole_on fuel m os g :
    Forall (fun a => forall n, snd a = Some n -> 0 <= n < 2 ^ 32) (c_arguments g) ->
    (forall p pl k kl, g = IssuerNew p pl k kl -> 32 <= kl) -> @c_run E' fuel m os g = @c_run E fuel m os g.
  Proof. exact (C115_c_whole E E' f L L' M fuel m os g). Qed.
End swift_on.

(** ** C115, continued: every function of the Swift wrapper returns the same, arrays being shorter than [2^32] *)
Definition short (b : bytes) : Prop := Z.of_nat (List.length b) < 2 ^ 32.
Ltac small_args := repeat (constructor; [cbn [snd]; intros ? K; first [discriminate|injection K as <-; unfold sw_count, short in *; lia]|]); constructor.
Ltac by_c L L' M g := apply (whole_on L L' M 0%nat _ _ g); [small_args|try discriminate].

Theorem C115_swift : forall E E' f, ExtLaws E -> ExtLaws E' -> same_crates E E' f ->
  forall reuse fuel m os seed number params entry keypair issuer presentation keys issuance user,
  short number -> short params -> short entry -> short keypair -> short (sw_data issuer) -> short presentation ->
  short keys -> short issuance -> short user ->
  @sw_system_parameters_create E' reuse fuel m os seed = @sw_system_parameters_create E reuse fuel m os seed /\
  @sw_roster_entry_with_seed E' reuse m os seed number params = @sw_roster_entry_with_seed E reuse m os seed number params /\
  @sw_roster_entry_open E' m os entry number params = @sw_roster_entry_open E m os entry number params /\
  ((32 <= List.length keypair)%nat ->
   @sw_issuer_with_keypair E' reuse m os keypair params = @sw_issuer_with_keypair E reuse m os keypair params) /\
  @sw_issuer_with_seed E' reuse m os seed params = @sw_issuer_with_seed E reuse m os seed params /\
  @sw_get_parameters E' reuse m os issuer = @sw_get_parameters E reuse m os issuer /\
  @sw_issue E' reuse m os issuer number seed = @sw_issue E reuse m os issuer number seed /\
  @sw_verify E' reuse m os issuer presentation = @sw_verify E reuse m os issuer presentation /\
  @sw_user_init E' reuse m os number params keys issuance = @sw_user_init E reuse m os number params keys issuance /\
  @sw_show E' reuse m os user entry seed = @sw_show E reuse m os user entry seed.
Proof.
  intros E E' f L L' M reuse fuel m os seed number params entry keypair issuer presentation keys issuance user
    Hn Hp He Hk Hi Hpr Hks His Hu.
  repeat split.
  - unfold sw_system_parameters_create. destruct (negb _); [reflexivity|]. destruct (vec_new m seed) as [s m1].
    apply after_on; [|reflexivity]. apply (whole_on L L' M fuel _ _ (SystemParametersCreate s)); [small_args|discriminate].
  - unfold sw_roster_entry_with_seed. destruct (negb _); [reflexivity|].
    destruct (vec_new m number) as [n m1]. destruct (vec_new m1 params) as [p m2]. destruct (vec_new m2 seed) as [s m3].
    apply after_on; [|reflexivity]. by_c L L' M (RosterEntryCommitmentCreate n (sw_count number) p (sw_count params) s).
  - unfold sw_roster_entry_open.
    destruct (vec_new m entry) as [e m1]. destruct (vec_new m1 number) as [n m2]. destruct (vec_new m2 params) as [p m3].
    apply after_on; [|reflexivity]. by_c L L' M (RosterEntryCommitmentOpen e (sw_count entry) n (sw_count number) p (sw_count params)).
  - intros Hl. unfold sw_issuer_with_keypair. destruct (vec_new m params) as [p m1]. destruct (vec_new m1 keypair) as [k m2].
    apply after_on; [|reflexivity]. by_c L L' M (IssuerNew p (sw_count params) k (sw_count keypair)).
    intros ? ? ? ? K. injection K as _ _ _ <-. unfold sw_count. lia.
  - unfold sw_issuer_with_seed. destruct (negb _); [reflexivity|]. destruct (vec_new m params) as [p m1]. destruct (vec_new m1 seed) as [s m2].
    apply after_on; [by_c L L' M (IssuerCreate p (sw_count params) s)|]. intros b m3 os3. apply read_on. intros d.
    assert (Hd : exists k, SwKeypair_withBytes d = Some k /\ List.length k = 96%nat).
    { unfold SwKeypair_withBytes, sw_init_with_bytes. destruct (Nat.eqb_spec (List.length d) SW_LENGTH_ISSUER_KEYPAIR) as [H|H]; eexists; (split; [reflexivity|]); [exact H|reflexivity]. }
    destruct Hd as (k & -> & Hk96). destruct (vec_new m3 params) as [p' m4]. destruct (vec_new m4 k) as [k' m5].
    apply after_on; [|reflexivity]. by_c L L' M (IssuerNew p' (sw_count params) k' (sw_count k)).
    intros ? ? ? ? K. injection K as _ _ _ <-. unfold sw_count. lia.
  - unfold sw_get_parameters. destruct (vec_new m (sw_data issuer)) as [i m1].
    apply after_on; [|reflexivity]. by_c L L' M (IssuerGetIssuerParameters i (sw_count (sw_data issuer))).
  - unfold sw_issue. destruct (negb _); [reflexivity|].
    destruct (vec_new m (sw_data issuer)) as [i m1]. destruct (vec_new m1 number) as [n m2]. destruct (vec_new m2 seed) as [s m3].
    apply after_on; [|reflexivity]. by_c L L' M (IssuerIssue i (sw_count (sw_data issuer)) n (sw_count number) s).
  - unfold sw_verify. destruct (vec_new m (sw_data issuer)) as [i m1]. destruct (vec_new m1 presentation) as [p m2].
    apply after_on; [|reflexivity]. by_c L L' M (IssuerVerify i (sw_count (sw_data issuer)) p (sw_count presentation)).
  - unfold sw_user_init. destruct (vec_new m number) as [n m1]. destruct (vec_new m1 params) as [p m2].
    destruct (vec_new m2 keys) as [k m3]. destruct (vec_new m3 issuance) as [i m4].
    apply after_on; [|reflexivity]. by_c L L' M (UserObtainFinish n (sw_count number) p (sw_count params) k (sw_count keys) i (sw_count issuance)).
  - unfold sw_show. destruct (negb _); [reflexivity|].
    destruct (vec_new m user) as [u m1]. destruct (vec_new m1 entry) as [e m2]. destruct (vec_new m2 seed) as [s m3].
    apply after_on; [|reflexivity]. by_c L L' M (UserShow u (sw_count user) e (sw_count entry) s).
Qed.
Print Assumptions C115_swift.

(** A debug build for 32 bits and a release build for 64, and an entry made with Swift in both. *)
Example C115_met_swift : ExtLaws (rebuilt toy true 32) /\ ExtLaws toy /\ same_crates toy (rebuilt toy true 32) (fun P => P) /\
  short (str "14155551234") /\ short (system_parameters_to_bytes sample_params) /\
  match @sw_roster_entry_with_seed (rebuilt toy true 32) (fun _ c i => nth i c x00) (blocks []) (toy_stream 1) (zeros 32) (str "14155551234")
          (system_parameters_to_bytes sample_params) with SwReturns (Some d) _ => Nat.eqb (List.length d) 64 && negb (forallb (Byte.eqb x00) d) | _ => false end = true.
Proof.
  split; [apply rebuilt_laws; [exact toy_laws|auto]|]. split; [exact toy_laws|]. split; [apply rebuilt_same|].
  split; [vm_compute; reflexivity|]. split; [vm_compute; reflexivity|]. vm_compute. reflexivity.
Qed.
