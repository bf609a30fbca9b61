(** Two builds of the library (C115; aeonflux/Cargo.toml:52-66).  One may hold the points of the
    group otherwise than the other (curve25519-dalek has several backends), may be
    a debug or a release build, and may have a [usize] of 32 or of 64 bits. *)
From Verif Require Export External.

(** The bytes of a result, or the error or panic there is instead. *)
Definition omap {Er A B} (g : A -> B) (o : outcome Er A) : outcome Er B :=
  match o with Ok a => Ok (g a) | Err e => Err e | Panic => Panic end.

(** [f] takes a point as [E] holds it to the same point as [E'] holds it: the
    operations agree, and so do the external crates which see bytes only. *)
Record same_crates (E E' : Ext) (f : point E -> point E') : Prop := {
  same_zero : @pzero E' = f pzero;
  same_add : forall P Q, padd (f P) (f Q) = f (padd P Q);
  same_neg : forall P, pneg (f P) = f (pneg P);
  same_eqb : forall P Q, peqb (f P) (f Q) = peqb P Q;
  same_basepoint : @basepoint E' = f basepoint;
  same_compress : forall P, compress (f P) = compress P;
  same_decompress : forall b, @decompress E' b = option_map f (@decompress E b);
  same_challenge : forall t l n, @tr_challenge E' t l n = @tr_challenge E t l n;
  same_rng : forall t w b, @tr_rng E' t w b = @tr_rng E t w b;
  same_chacha : forall s, @chacha E' s = @chacha E s;
  same_sha512 : forall b, @sha512 E' b = @sha512 E b;
}.

(** [E] built with debug assertions or without, and for [w] bits. *)
Definition rebuilt (E : Ext) (debug : bool) (w : Z) : Ext := {|
  point := point E; pzero := pzero; padd := padd; pneg := pneg; peqb := peqb; basepoint := basepoint;
  compress := compress; decompress := @decompress E; tr_challenge := @tr_challenge E; tr_rng := @tr_rng E;
  chacha := @chacha E; sha512 := @sha512 E; debug_build := debug; usize_bits := w |}.
