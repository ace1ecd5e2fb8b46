(** Content streams: src/pdfmm/base/PdfCanvasInputDevice.cpp, PdfContentsReader.cpp, PdfVariantStack.cpp, PdfOperatorUtils.cpp. The streams are
    their decoded bytes. The buffer of the tokenizer keeps its first size; tryReadInlineImgData may make it larger, which only lets later
    tokens be longer than 4095 characters. *)
From Coq Require Import String.
From Verif Require Import Base TokModel WriteModel CMapModel OpTables.
Local Open Scope Z_scope.

(** ** PdfCanvasInputDevice.cpp *)
(** m_currDevice as the bytes it has left, m_contents ([None]: an object without a stream), m_deviceSwitchOccurred, m_eof *)
Record cdev := mk_cd { cd_cur : list Z; cd_rest : list (option (list Z)); cd_sw : bool; cd_eof : bool }.
(** 202-218 tryPopNextDevice *)
Fixpoint pop_next (l : list (option (list Z))) : option (list Z * list (option (list Z))) :=
  match l with
  | [] => None
  | None :: r => pop_next r
  | Some [] :: r => pop_next r
  | Some b :: r => Some (b, r)
  end.
(** 15-46: the constructor. [l] are the streams of the array, or the only one *)
Definition cd_open (l : list (option (list Z))) : cdev :=
  match pop_next l with Some (b, r) => mk_cd b r false false | None => mk_cd [] [] false true end.
(** 127-157 readChar with 171-198 tryGetNextDevice; [None] is the result false. When no device is left, m_contents is empty *)
Definition cd_read (d : cdev) : option Z * cdev :=
  if cd_eof d then (None, d)
  else if cd_sw d then (Some 10, mk_cd (cd_cur d) (cd_rest d) false false)
  else match cd_cur d with
       | c :: r => (Some c, mk_cd r (cd_rest d) false false)
       | [] => match pop_next (cd_rest d) with
               | Some (b, r) => (Some 10, mk_cd b r false false)
               | None => (None, mk_cd [] [] false true)
               end
       end.
(** 48-79 peek: the device may change *)
Definition cd_peek (d : cdev) : option Z * cdev :=
  if cd_eof d then (None, d)
  else if cd_sw d then (Some 10, d)
  else match cd_cur d with
       | c :: r => (Some c, d)
       | [] => match pop_next (cd_rest d) with
               | Some (b, r) => (Some 10, mk_cd b r true false)
               | None => (None, mk_cd [] [] false true)
               end
       end.
(** 81-125 readBuffer. [first]: device is still null. The bytes read and the device *)
Fixpoint cd_fill (fuel : nat) (first : bool) (size : nat) (acc : list Z) (d : cdev) : res (list Z * cdev) :=
  match fuel with
  | O => Fuel
  | S f =>
    match (if first then Some d else match pop_next (cd_rest d) with Some (b, r) => Some (mk_cd b r true false) | None => None end) with
    | None => Ok (acc, mk_cd (cd_cur d) [] false true)
    | Some d =>
      if (size =? 0)%nat then Ok (acc, d)
      else if cd_sw d && (size =? 1)%nat then Ok (acc ++ [10], mk_cd (cd_cur d) (cd_rest d) false false)
      else
        let acc := if cd_sw d then acc ++ [10] else acc in
        let size := if cd_sw d then (size - 1)%nat else size in
        let got := firstn size (cd_cur d) in
        cd_fill f false (size - length got) (acc ++ got) (mk_cd (skipn size (cd_cur d)) (cd_rest d) false false)
    end
  end.
Definition cd_read_buffer (size : nat) (d : cdev) : res (list Z * cdev) :=
  if cd_eof d then Ok ([], d) else cd_fill (S (S (length (cd_rest d)))) true size [] d.
(** Everything that reading character by character gives *)
Fixpoint cd_drain (fuel : nat) (d : cdev) : res (list Z) :=
  match fuel with
  | O => Fuel
  | S f => match cd_read d with (None, _) => Ok [] | (Some c, d) => do l <- cd_drain f d; Ok (c :: l) end
  end.
Definition stream_size (x : option (list Z)) : nat := match x with Some b => S (length b) | None => 1%nat end.
Definition cd_all (l : list (option (list Z))) : res (list Z) := cd_drain (S (list_sum (map stream_size l))) (cd_open l).

(** ** PdfOperatorUtils.cpp *)
(** 22-394 TryGetPdfOperator *)
Fixpoint lookup_op (t : list (list Z * Z)) (n : list Z) : option Z :=
  match t with [] => None | (k, v) :: r => if beq n k then Some v else lookup_op r n end.
Definition op_of_name (n : list Z) : option Z := lookup_op op_table n.
Fixpoint lookup_z {A} (t : list (Z * A)) (n : Z) : option A :=
  match t with [] => None | (k, v) :: r => if n =? k then Some v else lookup_z r n end.
(** 405-633 TryGetOperandCount, 644-1018 TryGetPdfOperatorName *)
Definition op_count (op : Z) : option Z := lookup_z count_table op.
Definition op_name (op : Z) : option (list Z) := lookup_z opname_table op.
(** PdfDeclarations.h:622-715 *)
Definition op_BI : Z := 63.
Definition op_EI : Z := 65.
Definition op_Do : Z := 66.

(** ** PdfVariantStack.cpp *)
(** The stack with its top first. 40-48 operator[]: from the end; the index wraps below zero *)
Definition stack_at (st : list obj) (i : nat) : res obj := match nth_error st i with Some o => Ok o | None => Err EValueOutOfRange end.

(** ** PdfContentsReader.h *)
(** 21-30 *)
Inductive ctype := CUnknown | COperator | CImageDict | CImageData | CDoXObject | CEndForm | CUnexpected.
(** 32-41 *)
Definition w_operator : Z := 1.
Definition w_spurious : Z := 2.
Definition w_xobj : Z := 4.
Definition w_recursive : Z := 8.
Definition w_imgdict : Z := 16.
Definition w_noend : Z := 32.
(** PdfXObject.cpp:189-199 *)
Inductive xkind := XForm | XImage | XPostScript.
(** 45-56 PdfContent; XObject as the number of its object and its kind *)
Record content := mk_ct { ct_type : ctype; ct_warn : Z; ct_stack : list obj; ct_op : Z; ct_kw : list Z; ct_dict : list (list Z * obj);
  ct_data : list Z; ct_name : option (list Z); ct_xobj : option (Z * xkind) }.
Definition new_content : content := mk_ct CUnknown 0 [] 0 [] [] [] None None.
(** What the canvases give: the object of an XObject in the resources of a canvas and its kind, when there are resources, the name is there
    and PdfXObject::TryCreateFromObject (PdfXObject.cpp:65-109) succeeds; the streams of a form *)
Record world := mk_world { w_xobject : Z -> list Z -> option (Z * xkind); w_text : Z -> list (option (list Z)) }.
(** 58-75 PdfContentReaderArgs. The handler gets the dictionary and the device; false is the end of the device *)
Definition handler : Type := list (list Z * obj) -> list Z -> bool * list Z.
Record rargs := mk_ra { ra_throw : bool; ra_nofollow : bool; ra_handler : option handler }.
(** 129-134 Input: the canvas and the object of its contents, and the bytes left in the device (for a canvas those of PdfCanvasInputDevice,
    which the tokenizer reads character by character) *)
Record input := mk_in { in_canvas : option (Z * Z); in_dev : list Z }.
(** m_inputs with its back first, m_readingInlineImgData, and the queue of the tokenizer, which all inputs share *)
Record reader := mk_rd { rd_inputs : list input; rd_img : bool; rd_q : list token }.

(** ** PdfContentsReader.cpp *)
Definition add_warn (c : content) (w : Z) : content :=
  mk_ct (ct_type c) (Z.lor (ct_warn c) w) (ct_stack c) (ct_op c) (ct_kw c) (ct_dict c) (ct_data c) (ct_name c) (ct_xobj c).
Definition set_warn (c : content) (w : Z) : content :=
  mk_ct (ct_type c) w (ct_stack c) (ct_op c) (ct_kw c) (ct_dict c) (ct_data c) (ct_name c) (ct_xobj c).
Definition set_type (c : content) (t : ctype) : content :=
  mk_ct t (ct_warn c) (ct_stack c) (ct_op c) (ct_kw c) (ct_dict c) (ct_data c) (ct_name c) (ct_xobj c).
Definition set_dict (c : content) (d : list (list Z * obj)) : content :=
  mk_ct (ct_type c) (ct_warn c) (ct_stack c) (ct_op c) (ct_kw c) d (ct_data c) (ct_name c) (ct_xobj c).
Definition set_data (c : content) (d : list Z) : content :=
  mk_ct (ct_type c) (ct_warn c) (ct_stack c) (ct_op c) (ct_kw c) (ct_dict c) d (ct_name c) (ct_xobj c).
(** Type, stack, operator and keyword *)
Definition set_read (c : content) (t : ctype) (st : list obj) (op : Z) (kw : list Z) : content :=
  mk_ct t (ct_warn c) st op kw (ct_dict c) (ct_data c) (ct_name c) (ct_xobj c).
Definition set_name (c : content) (n : option (list Z)) : content :=
  mk_ct (ct_type c) (ct_warn c) (ct_stack c) (ct_op c) (ct_kw c) (ct_dict c) (ct_data c) n (ct_xobj c).
Definition set_xobj (c : content) (x : option (Z * xkind)) : content :=
  mk_ct (ct_type c) (ct_warn c) (ct_stack c) (ct_op c) (ct_kw c) (ct_dict c) (ct_data c) (ct_name c) x.
(** 163-167 beforeReadReset *)
Definition before_read (c : content) : content :=
  mk_ct (ct_type c) 0 [] (ct_op c) (ct_kw c) (ct_dict c) (ct_data c) (ct_name c) (ct_xobj c).
(** 169-230 afterReadClear *)
Definition after_read (c : content) : content :=
  match ct_type c with
  | COperator => mk_ct COperator (ct_warn c) (ct_stack c) (ct_op c) (ct_kw c) [] [] None None
  | CImageDict => mk_ct CImageDict (ct_warn c) (ct_stack c) 0 [] (ct_dict c) [] None None
  | CImageData => mk_ct CImageData (ct_warn c) (ct_stack c) 0 [] [] (ct_data c) None None
  | CDoXObject => mk_ct CDoXObject (ct_warn c) (ct_stack c) 0 [] [] [] (ct_name c) (ct_xobj c)
  | CUnexpected => mk_ct CUnexpected (ct_warn c) (ct_stack c) 0 (ct_kw c) [] [] None None
  | t => mk_ct t (ct_warn c) (ct_stack c) 0 [] [] [] None None
  end.
(** 111-160: the operands before the next keyword or brace; [None] is the end of the device *)
Fixpoint operands (fuel : nat) (st : list obj) (s : tst) : res (list obj * option (ps_item * tst)) :=
  match fuel with
  | O => Fuel
  | S f =>
    do r <- ps_next s;
    match r with
    | None => Ok (st, None)
    | Some (PVal o, s) => operands f (o :: st) s
    | Some (i, s) => Ok (st, Some (i, s))
    end
  end.
(** PdfPostScriptTokenizer.cpp:25-28 TryReadNextVariant; [None] is the result false: at the end, or at a keyword *)
Definition ps_try_variant (s : tst) : res (option obj * tst) := read_next ps_params (ps_fuel s) 0 s.
(** 268-307 tryReadInlineImgDict; [false] is the result false *)
Fixpoint image_dict (fuel : nat) (c : content) (s : tst) : res (content * bool * tst) :=
  match fuel with
  | O => Fuel
  | S f =>
    do r <- ps_next s;
    match r with
    | None => Ok (c, false, s)
    | Some (PKey t, s) => if beq t (bs "ID") then Ok (c, true, s) else image_dict f (add_warn c w_imgdict) s
    | Some (PVal (OName n), s) =>
      do (v, s) <- ps_try_variant s;
      match v with None => Ok (c, false, s) | Some o => image_dict f (set_dict c (dict_add n o (ct_dict c))) s end
    | Some (_, s) => image_dict f (add_warn c w_imgdict) s
    end
  end.
(** 432-442 isCalledRecursively; an input without a canvas is below all the others, and then this is not called *)
Definition called_recursively (l : list input) (x : Z) : bool :=
  existsb (fun i => match in_canvas i with Some (_, o) => o =? x | None => false end) l.
(** 309-346 tryFollowXObject; [i] is the back of the inputs [l] *)
Definition follow (w : world) (a : rargs) (canvas : Z) (l : list input) (c : content) : res (list input * content) :=
  match ct_stack c with
  | [OName n] =>
    let c := set_name c (Some n) in
    match w_xobject w canvas n with
    | Some (x, k) =>
      let c := set_xobj (set_type c CDoXObject) (Some (x, k)) in
      if called_recursively l x then Ok (l, add_warn c w_recursive)
      else match k with
           | XForm => if ra_nofollow a then Ok (l, c) else do t <- cd_all (w_text w x); Ok (mk_in (Some (x, x)) t :: l, c)
           | _ => Ok (l, c)
           end
    | None => Ok (l, add_warn c w_xobj)
    end
  | _ => Ok (l, add_warn c w_xobj)
  end.
(** 132-139 *)
Definition check_count (op : Z) (c : content) : res content :=
  match op_count op with
  | None => Err EInvalidEnumValue
  | Some n =>
    let size := Z.of_nat (length (ct_stack c)) in
    Ok (if (n =? -1) || (size =? n) then c else if size <? n then add_warn c w_operator else add_warn c w_spurious)
  end.
(** 105-161 tryReadNextContent, 233-265 tryHandleOperator; [false]: the end of the device. Then the queue is empty *)
Definition next_content (w : world) (a : rargs) (r : reader) (c : content) : res (bool * reader * content) :=
  match rd_inputs r with
  | [] => UB
  | i :: l =>
    let back s := mk_in (in_canvas i) (tin s) :: l in
    do (st, t) <- operands (S (length (in_dev i) + length (rd_q r))) (ct_stack c) (mk_tst (rd_q r) (in_dev i));
    match t with
    | None => Ok (false, mk_rd (i :: l) (rd_img r) [], set_read c CUnknown st (ct_op c) [])
    | Some (PKey t, s) =>
      match op_of_name t with
      | None => Ok (true, mk_rd (back s) (rd_img r) (tq s), set_read c CUnexpected st 0 t)
      | Some op =>
        do c <- check_count op (set_read c COperator st op t);
        if op =? op_Do then
          match in_canvas i with
          | None => Ok (true, mk_rd (back s) (rd_img r) (tq s), c)
          | Some (cv, _) => do (l, c) <- follow w a cv (back s) c; Ok (true, mk_rd l (rd_img r) (tq s), c)
          end
        else if op =? op_BI then
          do (e, s) <- image_dict (S (length (tin s) + length (tq s))) c s; let (c, ok) := e : content * bool in
          Ok (ok, mk_rd (back s) (if ok then true else rd_img r) (tq s), if ok then set_type c CImageDict else c)
        else Ok (true, mk_rd (back s) (rd_img r) (tq s), c)
      end
    | Some (_, s) => Ok (true, mk_rd (back s) (rd_img r) (tq s), set_read c CUnexpected st (ct_op c) [])
    end
  end.
(** 348-423 tryReadInlineImgData: the state (E, I or white space is next), the bytes read so far with the last first. [None] is the result
    false *)
Inductive ei := WantE | WantI | WantWs.
Fixpoint image_data (st : ei) (acc : list Z) (b : list Z) : option (list Z * list Z) :=
  match b with
  | [] => None
  | c :: r =>
    match st with
    | WantE => image_data (if c =? 69 then WantI else WantE) (c :: acc) r
    | WantI => image_data (if c =? 73 then WantWs else WantE) (c :: acc) r
    | WantWs => if is_ws c then Some (rev (skipn 2 acc), r) else image_data WantE (c :: acc) r
    end
  end.
Definition read_image_data (b : list Z) : option (list Z * list Z) := match b with [] => None | _ :: r => image_data WantE [] r end.
(** 425-429 handleWarnings *)
Definition handle_warnings (a : rargs) : res unit := if ra_throw a then Err EInvalidContentStream else Ok tt.
Definition handle_content (a : rargs) (r : reader) (c : content) : res (bool * reader * content) :=
  do _ <- handle_warnings a; Ok (true, r, after_read c).
(** 84-97 PopDevice and Eof *)
Definition end_of_all (r : reader) (c : content) : res (bool * reader * content) := Ok (false, r, after_read (set_type c CUnknown)).
Definition pop_device (a : rargs) (r : reader) (c : content) : res (bool * reader * content) :=
  match rd_inputs r with
  | [] => UB
  | [_] => end_of_all (mk_rd [] (rd_img r) (rd_q r)) c
  | _ :: l => let c := set_type c CEndForm in
              handle_content a (mk_rd l (rd_img r) (rd_q r)) (match ct_stack c with [] => c | _ => add_warn c w_spurious end)
  end.
Definition read_content (w : world) (a : rargs) (r : reader) (c : content) : res (bool * reader * content) :=
  do (k, c) <- next_content w a r c; let (ok, r) := k : bool * reader in
  if ok then handle_content a r c else pop_device a r c.
(** 43-102 TryReadNext *)
Definition try_read_next (w : world) (a : rargs) (r : reader) (c : content) : res (bool * reader * content) :=
  let c := before_read c in
  match rd_inputs r with
  | [] => end_of_all r c
  | i :: l =>
    if rd_img r then
      match ra_handler a with
      | None =>
        match read_image_data (in_dev i) with
        | None => pop_device a r c
        | Some (d, b) => Ok (true, mk_rd (mk_in (in_canvas i) b :: l) false (rd_q r), after_read (set_type (set_data c d) CImageData))
        end
      | Some h =>
        let (more, b) := h (ct_dict c) (in_dev i) in
        let r := mk_rd (mk_in (in_canvas i) b :: l) false (rd_q r) in
        if more then
          do (k, c) <- next_content w a r c; let (ok, r) := k : bool * reader in
          if ok then
            if ct_op c =? op_EI then read_content w a r (before_read c) else handle_content a r (set_warn c w_noend)
          else pop_device a r (set_warn c w_noend)
        else pop_device a r (set_warn c w_noend)
      end
    else read_content w a r c
  end.
(** Reading until false: the contents in order *)
Fixpoint read_all (fuel : nat) (w : world) (a : rargs) (r : reader) (c : content) : res (list content) :=
  match fuel with
  | O => Fuel
  | S f => do (k, c) <- try_read_next w a r c; let (ok, r) := k : bool * reader in
           if ok then do l <- read_all f w a r c; Ok (c :: l) else Ok []
  end.
(** 19-22: a reader of a canvas, 24-26: of a device *)
Definition open_canvas (canvas cobj : Z) (l : list (option (list Z))) : res reader := do t <- cd_all l; Ok (mk_rd [mk_in (Some (canvas, cobj)) t] false []).
Definition open_device (b : list Z) : reader := mk_rd [mk_in None b] false [].
