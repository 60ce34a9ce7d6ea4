(** Base 64 and hexadecimal text, digit by digit. *)
From Verif Require Import Bytes Hex Base64 SpecBase64 Base64Spec.
Open Scope string_scope.

(* ---------------------------------------------------------------- *)
(** C30: the text is the one RFC 4648 prescribes, unused bits are zero. *)
Theorem C30_base64_text s : b64_encode s = base64_of s.
Proof. exact (encode_spec s). Qed.
Print Assumptions C30_base64_text.

Theorem C30_hex_text s : hex_encode s = base16_of s.
Proof. exact (hex_spec s). Qed.
Print Assumptions C30_hex_text.

Example C30_base64_text_ex : base64_of "f" = "Zg==" /\ base64_of "fo" = "Zm8=" /\ base64_of "foo" = "Zm9v" /\ base64_of "foobar" = "Zm9vYmFy" /\ base16_of "fo" = "666f".
Proof. vm_compute. done. Qed.
