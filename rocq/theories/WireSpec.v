(** Independent vocabulary for the statements about NDT5 framing. It does not use
    the model of the code. *)
From Coq Require Import ZArith List Bool.
From Verif Require Import Base.
Import ListNotations.
Open Scope Z_scope.

(** The NDT5 wire format of a message: one type byte, the payload length as two
    big-endian bytes, the payload. *)
Definition wire_frame (m : Z * bytes) : bytes :=
  fst m :: len (snd m) / 256 :: len (snd m) mod 256 :: snd m.

(** The wire form of several messages sent one after the other. *)
Definition wire_frames (ms : list (Z * bytes)) : bytes := concat (map wire_frame ms).

(** A payload whose length can be written in two bytes. *)
Definition fits (payload : bytes) : Prop := len payload < 65536.

(** A TCP segmentation [segs] of the byte stream [data]. *)
Definition segmentation (data : bytes) (segs : list bytes) : Prop :=
  Forall (fun s => s <> []) segs /\ concat segs = data.

(** Position [k] of the stream is a boundary between segments. *)
Definition cut_at (segs : list bytes) (k : Z) : Prop :=
  exists a b, segs = a ++ b /\ len (concat a) = k.

(** No boundary lies inside the three header bytes of a message, nor inside its payload. *)
Definition unsplit (segs : list bytes) (ms : list (Z * bytes)) : Prop :=
  forall before ty payload after k, ms = before ++ (ty, payload) :: after -> cut_at segs k ->
  let o := len (wire_frames before) in
  ~ (o < k < o + 3) /\ ~ (o + 3 < k < o + 3 + len payload).
