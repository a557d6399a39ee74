(** UTF-8, for stating properties. *)
From Verif Require Export Bytes.

(** The UTF-8 form of a code point (RFC 3629 section 3). *)
Definition byte (z : Z) : char := ascii_of_N (Z.to_N z).
Definition utf8 (cp : Z) : str :=
  if cp <? 128 then [byte cp]
  else if cp <? 2048 then [byte (192 + cp / 64); byte (128 + cp mod 64)]
  else if cp <? 65536 then [byte (224 + cp / 4096); byte (128 + cp / 64 mod 64); byte (128 + cp mod 64)]
  else [byte (240 + cp / 262144); byte (128 + cp / 4096 mod 64); byte (128 + cp / 64 mod 64); byte (128 + cp mod 64)].
(** Unicode scalar values other than NUL. *)
Definition scalar (cp : Z) : Prop := 0 < cp < 55296 \/ 57344 <= cp < 1114112.
