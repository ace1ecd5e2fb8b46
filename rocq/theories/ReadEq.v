(** Unfolding equations of the mutually recursive reader. *)
From Coq Require Import String.
From Verif Require Import Base TokModel.
Local Open Scope Z_scope.

Lemma read_variant_S P f depth t s : read_variant P (S f) depth t s =

    if (rmax P <? S depth)%nat then Err EInvalidXRef
    else do (dt, s') <- determine (rbuf P) (rrefs P) t s; read_data P f (S depth) dt s'.
Proof. reflexivity. Qed.

Lemma read_data_S P f depth dt s : read_data P (S f) depth dt s =

    match dt with
    | DVal o => Ok (Some o, s)
    | DUnknown => Ok (None, s)
    | DStr => let '(x, k) := read_string SNorm 0 (tin s) in Ok (Some (OStr false x), mk_tst (tq s) k)
    | DHex => let '(x, k) := read_hex (tin s) in Ok (Some (OStr true x), mk_tst (tq s) k)
    | DName => let '(x, s') := read_name (rbuf P) s in Ok (Some (OName x), s')
    | DArr => do (l, s') <- read_array P f depth [] s; Ok (Some (OArr l), s')
    | DDict => do (d, s') <- read_dict P f depth [] None s; Ok (Some (ODict d), s')
    end.
Proof. reflexivity. Qed.

Lemma read_array_S P f depth acc s : read_array P (S f) depth acc s =

    match next_token (rbuf P) s with
    | None => Err EUnexpectedEOF
    | Some ((TRSq, _), s1) => Ok (acc, s1)
    | Some (t, s1) =>
      do (v, s2) <- read_variant P f depth t s1;
      match v with
      | None => Err EInvalidDataType
      | Some o => read_array P f depth (acc ++ [o]) s2
      end
    end.
Proof. reflexivity. Qed.

Lemma read_dict_S P f depth acc contents s : read_dict P (S f) depth acc contents s =

    match next_token (rbuf P) s with
    | None => Err EUnexpectedEOF
    | Some ((TDRAng, _), s1) =>
      Ok (match contents with
          | None => acc
          | Some x => dict_add (bs "Contents") (OStr true x) acc
          end, s1)
    | Some (t, s1) =>
      do (v, s2) <- read_variant P f depth t s1;
      match v with
      | None => Err EInvalidDataType
      | Some (OName key) =>
        match next_token (rbuf P) s2 with
        | None => Err EUnexpectedEOF
        | Some (t', s3) =>
          do (dt, s4) <- determine (rbuf P) (rrefs P) t' s3;
          match beq key (bs "Contents"), dt with
          | true, DHex =>
            let '(x, k) := read_hex (tin s4) in
            read_dict P f depth acc (Some x) (mk_tst (tq s4) k)
          | _, _ =>
            do (v', s5) <- read_data P f depth dt s4;
            match v' with
            | None => Err EInvalidDataType
            | Some o => read_dict P f depth (dict_add key o acc) contents s5
            end
          end
        end
      | Some _ => Err EInvalidDataType
      end
    end.
Proof. reflexivity. Qed.
