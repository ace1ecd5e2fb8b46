(** Unicode and PDFDocEncoding as the standards define them, independent of the code. *)
From Verif Require Import Base.
Local Open Scope Z_scope.

(** Unicode scalar values *)
Definition scalar (cp : Z) : Prop := 0 <= cp <= 1114111 /\ ~ (55296 <= cp <= 57343).
Definition scalars (l : list Z) : Prop := Forall scalar l.

(** RFC 3629, section 3 *)
Definition utf8_char (cp : Z) : list Z :=
  if cp <? 128 then [cp]
  else if cp <? 2048 then [192 + cp / 64; 128 + cp mod 64]
  else if cp <? 65536 then [224 + cp / 4096; 128 + cp / 64 mod 64; 128 + cp mod 64]
  else [240 + cp / 262144; 128 + cp / 4096 mod 64; 128 + cp / 64 mod 64; 128 + cp mod 64].
Definition utf8_text (l : list Z) : list Z := flat_map utf8_char l.

(** RFC 2781, section 2.1 *)
Definition utf16_char (cp : Z) : list Z :=
  if cp <? 65536 then [cp] else [55296 + (cp - 65536) / 1024; 56320 + (cp - 65536) mod 1024].
Definition utf16be_text (l : list Z) : list Z := flat_map (fun u => [u / 256; u mod 256]) (flat_map utf16_char l).

(** PDFDocEncoding, ISO 32000-2 Annex D.3; undefined: 7F, 9F, AD *)
Definition std_doc (b : Z) : option Z :=
  if b <? 24 then Some b
  else if b <? 32 then nth_error [728; 711; 710; 729; 733; 731; 730; 732] (Z.to_nat (b - 24))
  else if b <? 127 then Some b
  else if b =? 127 then None
  else if b <? 159 then
    nth_error [8226; 8224; 8225; 8230; 8212; 8211; 402; 8260; 8249; 8250; 8722; 8240; 8222; 8220; 8221; 8216; 8217; 8218;
               8482; 64257; 64258; 321; 338; 352; 376; 381; 305; 322; 339; 353; 382] (Z.to_nat (b - 128))
  else if b =? 159 then None
  else if b =? 160 then Some 8364
  else if b =? 173 then None
  else Some b.
(** bytes [d] are the PDFDocEncoding of the characters [cps] *)
Definition doc_encodes (d cps : list Z) : Prop := Forall2 (fun b cp => is_byte b /\ std_doc b = Some cp) d cps.
(** characters of the table *)
Definition doc_char (cp : Z) : Prop := exists b, is_byte b /\ std_doc b = Some cp.
