(** Encryption dictionaries, passwords and keys: src/pdfmm/base/PdfEncrypt.cpp, as built without libidn (no AES-256).
    The hash function of OpenSSL is a parameter [md5]. Arrays are lists; reading behind the 16 bytes of a digest or the end of a
    string is undefined. All algorithms are enabled. *)
From Coq Require Import String.
From Verif Require Import Base TokModel OwnModel Rc4Model.
Local Open Scope Z_scope.

Definition s32 (z : Z) : Z := let u := u32 z in if u <? 2 ^ 31 then u else u - 2 ^ 32.
(** PdfEncryptAlgorithm without AESV3 *)
Inductive algo := RC4V1 | RC4V2 | AESV2.
(** PdfEncrypt.h:388-401: m_Algorithm, m_eKeyLength (bits), m_keyLength (bytes), m_rValue, m_pValue (an int), the 32 bytes of m_oValue
    and m_uValue, m_encryptionKey, m_EncryptMetadata, m_userPass, m_ownerPass, m_documentId *)
Record enc := mk_enc { alg : algo; ekl : Z; kl : Z; rv : Z; pv : Z; ov : list Z; uv : list Z; ekey : list Z; meta : bool; upw : list Z; opw : list Z; did : list Z }.

(** 426-427 *)
Definition padding : list Z :=
  [40; 191; 78; 94; 78; 117; 138; 65; 100; 0; 78; 86; 255; 250; 1; 8; 46; 46; 0; 182; 208; 104; 62; 128; 47; 12; 169; 254; 100; 83; 105; 122].
(** 637-650 PadPassword *)
Definition pad_password (pw : list Z) : list Z :=
  let m := Nat.min (length pw) 32 in firstn m pw ++ firstn (32 - m) padding.
(** MD5_Update(digest, n) on a digest of 16 bytes *)
Definition part (n : Z) (digest : list Z) : res (list Z) := if (n <? 0) || (16 <? n) then UB else Ok (firstn (Z.to_nat n) digest).
Fixpoint rehash (md5 : list Z -> list Z) (times : nat) (n : Z) (digest : list Z) : res (list Z) :=
  match times with O => Ok digest | S t => do p <- part n digest; rehash md5 t n (md5 p) end.
(** The keys of 20 rounds, each of the [n] bytes of [digest] combined with the number of the round *)
Definition round_key (digest : list Z) (i : Z) : list Z := map (fun b => Z.lxor b i) digest.
Fixpoint rounds (digest : list Z) (numbers : list Z) (data : list Z) : res (list Z) :=
  match numbers with [] => Ok data | i :: r => do data <- rc4_string (round_key digest i) data; rounds digest r data end.
Definition up20 : list Z := map Z.of_nat (seq 0 20).
(** 666-715 ComputeOwnerKey *)
Definition owner_key (md5 : list Z -> list Z) (user owner : list Z) (n revision : Z) (authenticate : bool) : res (list Z) :=
  let digest := md5 owner in
  if (revision =? 3) || (revision =? 4) then
    do digest <- rehash md5 50 n digest;
    do d <- part n digest;
    rounds d (if authenticate then map (fun i => 19 - i) up20 else up20) user
  else rc4_string (firstn 5 digest) user.
(** 728-737: the permissions as four bytes *)
Definition perm_bytes (p : Z) : list Z := map (fun k => Z.shiftr (u32 p) (8 * k) mod 256) [0; 1; 2; 3].
(** 717-840 ComputeEncryptionKey: the object with its new key, and the user key *)
Definition encryption_key (md5 : list Z -> list Z) (e : enc) (user : list Z) : res (enc * list Z) :=
  let n := u32 (Z.quot (ekl e) 8) in
  let rev3 := (rv e =? 3) || (rv e =? 4) in
  let digest := md5 (user ++ ov e ++ perm_bytes (pv e) ++ did e ++ (if meta e then [] else repeat 255 4)) in
  do digest <- (if rev3 then rehash md5 50 n digest else Ok digest);
  do k <- part n digest;
  let e' := mk_enc (alg e) (ekl e) n (rv e) (pv e) (ov e) (uv e) (k ++ skipn (Z.to_nat n) (ekey e)) (meta e) (upw e) (opw e) (did e) in
  if rev3 then
    do u <- rounds k up20 (md5 (padding ++ did e)); Ok (e', u ++ repeat 0 16)
  else
    do u <- rc4_string k padding; Ok (e', u).
(** 608-616 CheckKey *)
Definition check_key (n : Z) (a b : list Z) : bool := beq (firstn (Z.to_nat n) a) (firstn (Z.to_nat n) b).
(** 1000-1016, 1240-1256 GenerateEncryptionKey *)
Definition generate (md5 : list Z -> list Z) (e : enc) (id : list Z) : res enc :=
  do o <- owner_key md5 (pad_password (upw e)) (pad_password (opw e)) (kl e) (rv e) false;
  let e := mk_enc (alg e) (ekl e) (kl e) (rv e) (pv e) o (uv e) (ekey e) (meta e) (upw e) (opw e) id in
  do p <- encryption_key md5 e (pad_password (upw e));
  let (e, u) := p : enc * list Z in
  Ok (mk_enc (alg e) (ekl e) (kl e) (rv e) (pv e) (ov e) u (ekey e) (meta e) (upw e) (opw e) (did e)).
Definition with_passwords (e : enc) (u o : list Z) : enc :=
  mk_enc (alg e) (ekl e) (kl e) (rv e) (pv e) (ov e) (uv e) (ekey e) (meta e) u o (did e).
(** 1018-1047, 1258-1287 Authenticate *)
Definition authenticate (md5 : list Z -> list Z) (e : enc) (pw id : list Z) : res (bool * enc) :=
  let e := mk_enc (alg e) (ekl e) (kl e) (rv e) (pv e) (ov e) (uv e) (ekey e) (meta e) (upw e) (opw e) id in
  do p <- encryption_key md5 e (pad_password pw);
  let (e, u) := p : enc * list Z in
  if check_key (kl e) u (uv e) then Ok (true, with_passwords e pw (opw e))
  else
    do user <- owner_key md5 (ov e) (pad_password pw) (kl e) (rv e) true;
    do p <- encryption_key md5 e user;
    let (e, u) := p : enc * list Z in
    if check_key (kl e) u (uv e) then Ok (true, with_passwords e (upw e) pw) else Ok (false, e).

(** 429-452 Create, 1089-1136, 1317-1336: [len] is PdfKeyLength in bits *)
Definition create (user owner : list Z) (protection : Z) (a : algo) (len : Z) : enc :=
  let p := s32 (Z.lor 4294963392 protection) in
  match a with
  | RC4V2 =>
    let n := len - Z.rem len 8 in
    let n := if 40 <=? n then if n <=? 128 then n else 128 else 40 in
    mk_enc RC4V2 len (n / 8) 3 p (repeat 0 32) (repeat 0 32) (repeat 0 32) true user owner []
  | RC4V1 => mk_enc RC4V1 len 5 2 p (repeat 0 32) (repeat 0 32) (repeat 0 32) true user owner []
  | AESV2 => mk_enc AESV2 128 16 4 p (repeat 0 32) (repeat 0 32) (repeat 0 32) true user owner []
  end.
(** 949-998 CreateEncryptionDictionary *)
Definition dictionary (e : enc) : list (list Z * obj) :=
  let d := add_key (bs "Filter") (OName (bs "Standard")) [] in
  let d :=
    match alg e, meta e with
    | AESV2, _ | _, false =>
      let cfm := match alg e with RC4V2 => bs "V2" | _ => bs "AESV2" end in
      let std := add_key (bs "AuthEvent") (OName (bs "DocOpen")) (add_key (bs "Length") (ONum 16) (add_key (bs "CFM") (OName cfm) [])) in
      let d := add_key (bs "U") (OStr true (uv e)) (add_key (bs "O") (OStr true (ov e)) d) in
      let d := add_key (bs "CF") (ODict (add_key (bs "StdCF") (ODict std) [])) d in
      let d := add_key (bs "StmF") (OName (bs "StdCF")) (add_key (bs "StrF") (OName (bs "StdCF")) d) in
      let d := add_key (bs "Length") (ONum 128) (add_key (bs "R") (ONum 4) (add_key (bs "V") (ONum 4) d)) in
      if meta e then d else add_key (bs "EncryptMetadata") (OBool false) d
    | RC4V1, true => add_key (bs "R") (ONum (rv e)) (add_key (bs "V") (ONum 1) d)
    | RC4V2, true => add_key (bs "Length") (ONum (ekl e)) (add_key (bs "R") (ONum 3) (add_key (bs "V") (ONum 2) d))
    end in
  add_key (bs "P") (ONum (pv e)) (add_key (bs "U") (OStr true (uv e)) (add_key (bs "O") (OStr true (ov e)) d)).

(** Typed access: MustGetKey raises when the key is missing, the getters when the type differs *)
Definition num_of (o : option obj) : res Z := match o with Some (ONum n) => Ok n | Some _ => Err EInvalidDataType | None => Err ENoObject end.
Definition str_of (o : option obj) : res (list Z) := match o with Some (OStr _ s) => Ok s | Some _ => Err EInvalidDataType | None => Err ENoObject end.
(** memcpy of 32 bytes of a string *)
Definition first32 (s : list Z) : res (list Z) := if (length s <? 32)%nat then UB else Ok (firstn 32 s).
(** 454-558 CreateFromObject with the constructors 1062-1078 and 1341-1359 *)
Definition from_dictionary (d : list (list Z * obj)) : res enc :=
  do _ <- match get_key (bs "Filter") d with
          | None => Err EUnsupportedFilter
          | Some (OName n) => if beq n (bs "Standard") then Ok tt else Err EUnsupportedFilter
          | Some _ => Err EInvalidDataType
          end;
  do v <- num_of (get_key (bs "V") d);
  do r <- num_of (get_key (bs "R") d);
  do p <- num_of (get_key (bs "P") d);
  do o <- str_of (get_key (bs "O") d);
  do u <- str_of (get_key (bs "U") d);
  do len <- match get_key (bs "Length") d with None => Ok 0 | x => num_of x end;
  let m := match get_key (bs "EncryptMetadata") d with Some (OBool b) => b | _ => true end in
  let cfm :=
    match get_key (bs "StmF") d, get_key (bs "CF") d with
    | Some (OName f), Some (ODict cf) =>
      match get_key f cf with
      | Some (ODict x) => match get_key (bs "CFM") x with Some (OName n) => n | _ => [] end
      | _ => []
      end
    | _, _ => []
    end in
  let v := s32 v in let r := s32 r in let p := s32 p in
  let make (a : algo) (rev bits : Z) :=
    do o <- first32 o; do u <- first32 u;
    Ok (mk_enc a bits (u32 (Z.quot bits 8)) rev p o u (repeat 0 32) m [] [] []) in
  if (v =? 1) && ((r =? 2) || (r =? 3)) then make RC4V1 r 40
  else if (v =? 2) && (r =? 3) || beq cfm (bs "V2") then
    if 128 <? len then Err EValueOutOfRange else make RC4V2 r (s32 len)
  else if (v =? 4) && (r =? 4) then make AESV2 4 128
  else Err EUnsupportedFilter.

(** PdfParser.cpp:607-664: a document opened with a password; None: InvalidPassword is raised *)
Definition open_document (md5 : list Z -> list Z) (d : list (list Z * obj)) (pw id : list Z) : res (option enc) :=
  do e <- from_dictionary d;
  do r <- authenticate md5 e pw id;
  Ok (if fst r then Some (snd r) else None).
(** PdfWriter.cpp:73-84, 311-314, PdfEncrypt.cpp:560-606, 623-635: saving encrypts with a copy of the object, whose keys are made again;
    of the encryption key 16 bytes are copied *)
Definition copy (e : enc) : enc :=
  mk_enc (alg e) (ekl e) (kl e) (rv e) (pv e) (ov e) (uv e) (firstn 16 (ekey e) ++ repeat 0 16) (meta e) (upw e) (opw e) (did e).
Definition save_document (md5 : list Z -> list Z) (e : enc) (id : list Z) : res (list (list Z * obj) * enc) :=
  do e <- generate md5 (copy e) id; Ok (dictionary e, e).

(** 842-872 CreateObjKey: nkey has room for 25 bytes *)
Definition object_key (md5 : list Z -> list Z) (e : enc) (n g : Z) : res (list Z) :=
  if 16 <? kl e then UB
  else
    let salt := match alg e with AESV2 => [115; 65; 108; 84] | _ => [] end in
    let k := firstn (Z.to_nat (kl e)) (ekey e) ++ [n mod 256; Z.shiftr n 8 mod 256; Z.shiftr n 16 mod 256; g mod 256; Z.shiftr g 8 mod 256] ++ salt in
    let len := if kl e <=? 11 then kl e + 5 else 16 in
    Ok (firstn (Z.to_nat len) (md5 k)).
(** 1059-1074 Encrypt and Decrypt of strings with RC4, 1885-1903 EncryptTo, DecryptTo *)
Definition crypt_string (md5 : list Z -> list Z) (e : enc) (n g : Z) (data : list Z) : res (list Z) :=
  do k <- object_key md5 e n g; rc4_string k data.
(** PdfWriter.cpp:200-207 and PdfParser.cpp:891-897: the identifier that a reader uses, the first of the array *)
Definition file_id (update : bool) (original identifier : list Z) : list Z :=
  if update && negb (match original with [] => true | _ => false end) then original else identifier.
