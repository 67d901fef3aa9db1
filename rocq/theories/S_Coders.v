(** What the compression crates promise, independently of the code. *)
From Verif Require Export M_Coders S_Body S_Examples.

Section Coders.
Variables (enc : ctype -> Z -> bytes -> bytes) (dcd : ctype -> bytes -> option bytes).

(** What a coder made over a sink that held [sink], and given [fed], yields in the end:
    [Some level]: an encoder, [None]: a decoder. *)
Definition yields (ct : ctype) (level : option Z) (sink fed : bytes) : option bytes :=
  match level with
  | Some l => Some (sink ++ enc ct l fed)
  | None => match dcd ct fed with Some d => Some (sink ++ d) | None => None end
  end.
(** A call to write takes some of what it is offered, at least one byte.  Only a decoder may
    refuse, and only what cannot be the beginning of anything it could decode. *)
Definition writes_well {S} (write : S -> bytes -> S * option nat)
    (is : S -> ctype -> option Z -> bytes -> bytes -> Prop) : Prop :=
  forall s ct level sink fed d, is s ct level sink fed -> d <> [] ->
    (exists n, 1 <= n <= length d /\ snd (write s d) = Some n
       /\ is (fst (write s d)) ct level sink (fed ++ firstn n d))
    \/ ((snd (write s d) = None \/ snd (write s d) = Some 0)
        /\ level = None /\ forall e, dcd ct (fed ++ d ++ e) = None).

(** the crates: [is s ct level sink fed] says which coder [s] is and what it has taken *)
Definition honest (L : library) : Prop :=
  exists (f : flate2_state L -> ctype -> option Z -> bytes -> bytes -> Prop)
         (e : brenc_state L -> ctype -> option Z -> bytes -> bytes -> Prop)
         (d : brdec_state L -> ctype -> option Z -> bytes -> bytes -> Prop),
  (forall ct l sink, ct <> Brotil -> f (flate2_enc L ct l sink) ct (Some l) sink [])
  /\ (forall ct sink, ct <> Brotil -> f (flate2_dec L ct sink) ct None sink [])
  /\ (forall l sink, e (brenc_new L l sink) Brotil (Some l) sink [])
  /\ (forall sink, d (brdec_new L sink) Brotil None sink [])
  /\ writes_well (flate2_write L) f /\ writes_well (brenc_write L) e /\ writes_well (brdec_write L) d
  /\ (forall s ct level sink fed, f s ct level sink fed -> flate2_finish L s = yields ct level sink fed)
  /\ (forall s ct level sink fed, e s ct level sink fed ->
      exists s', brenc_flush L s = Some s' /\ Some (brenc_into L s') = yields ct level sink fed)
  /\ (forall s ct level sink fed, d s ct level sink fed ->
      match yields ct level sink fed with
      | Some x => exists s', brdec_close L s = Some s' /\ (brdec_into L s' = inl x \/ brdec_into L s' = inr x)
      | None => brdec_close L s = None
      end).
End Coders.

(** A coder of any kind, [got] being what it has taken: it counts what it takes of an offer, and
    takes nothing when it fails. *)
Definition counts (K : codec) (got : cstate K -> bytes) : Prop :=
  forall c d, match snd (c_append K c d) with
              | Some n => n <= length d /\ got (fst (c_append K c d)) = got c ++ firstn n d
              | None => got (fst (c_append K c d)) = got c
              end.

(** Crates that take one byte per call.  What they write starts with the name of the coding
    ([with_tag]); their decoders refuse what does not. *)
Definition sip_state : Type := bytes * ctype * option Z * bytes.
Definition sip_write (s : sip_state) (d : bytes) : sip_state * option nat :=
  let '(sink, ct, l, fed) := s in
  let fed' := fed ++ firstn 1 d in
  match l, sans_tag ct fed' with
  | None, None => if Nat.leb 2 (length fed') then (s, Some 0) else ((sink, ct, l, fed'), Some 1)
  | _, _ => ((sink, ct, l, fed'), Some 1)
  end.
Definition sip_end (s : sip_state) : option bytes :=
  let '(sink, ct, l, fed) := s in yields with_tag sans_tag ct l sink fed.
Definition sip_library : library :=
  Library sip_state (fun ct l sink => (sink, ct, Some l, [])) (fun ct sink => (sink, ct, None, [])) sip_write sip_end
    sip_state (fun l sink => (sink, Brotil, Some l, [])) sip_write Some
      (fun s => match sip_end s with Some x => x | None => [] end)
    sip_state (fun sink => (sink, Brotil, None, [])) sip_write
      (fun s => match sip_end s with Some _ => Some s | None => None end)
      (fun s => match sip_end s with Some x => inr x | None => inl [] end).
