(** Concrete values used by the non-vacuity examples. *)
From Verif Require Export M_Serve.

(** the settings of a service that configures nothing *)
Definition cfg0 : http_config := http_autofix http_default None.

(** a codec that copies *)
Definition copy_codec : codec :=
  Codec bytes (fun _ _ b => b) (fun _ b => b) (fun s d => (s ++ d, Some (length d))) (fun s => Some s).

(** a codec that puts the initial of its type in front *)
Definition ctype_tag (ct : ctype) : bytes := B (match ct with Brotil => "b:" | Deflate => "d:" | Gzip => "g:" end).
Definition with_tag (ct : ctype) (_ : Z) (x : bytes) : bytes := ctype_tag ct ++ x.
Definition sans_tag (ct : ctype) (x : bytes) : option bytes :=
  if bytes_eqb (firstn 2 x) (ctype_tag ct) then Some (skipn 2 x) else None.
Definition tags_codec : codec :=
  Codec (bytes * ctype * option Z * bytes) (fun ct l b => (b, ct, Some l, [])) (fun ct b => (b, ct, None, []))
    (fun c d => let '(b, ct, l, x) := c in (b, ct, l, x ++ d, Some (length d)))
    (fun c => let '(b, ct, l, x) := c in
       match l with
       | Some l => Some (b ++ with_tag ct l x)
       | None => match sans_tag ct x with Some d => Some (b ++ d) | None => None end
       end).

(** a client sending [s] in one piece and then stopping, or one byte at a time *)
Definition one_piece (s : bytes) (e : ending) : reader := Rd [s] e.
Definition byte_wise (s : bytes) (e : ending) : reader := Rd (map (fun c => [c]) s) e.

Definition nl : string := String CR (String LF EmptyString).
Definition open_writer : writer := Wr [] None.
