(** The appearance characteristics of widgets: src/pdfmm/base/PdfAnnotationActionBase.h:44-95, PdfAnnotationActionBase.cpp:49-154, and the
    captions of buttons: PdfButton.cpp:47-68, PdfPushButton.cpp:38-82. The objects of the document are a map from references to values;
    new objects get the next number. Texts are bytes. A colour is taken as the array that PdfColor::ToArray makes of it, or as the
    error that it raises; reading colours is in ColorModel. *)
From Coq Require Import String QArith.
From Verif Require Import Base TokModel OwnModel ListModel PageModel ColorModel.
Local Open Scope Z_scope.

(** m_AppearanceCharacteristics: none, those inside of the dictionary of the widget, or those of an indirect object *)
Inductive mk_place := MkIn | MkAt (r : ref).
(** The document, the number of its next object, and m_AppearanceCharacteristics *)
Record wst := mk_wst { w_heap : heap; w_next : Z; w_chars : option mk_place }.

(** The constructor, PdfAnnotationActionBase.h:51-57: FindKey; PdfElement.cpp:24-33 raises when it is not a dictionary *)
Definition open_widget (h : heap) (next : Z) (w : ref) : res wst :=
  do d <- dict_at h w;
  match get_key (bs "MK") d with
  | None => Ok (mk_wst h next None)
  | Some (ORef n g) =>
    match h (n, g) with
    | None => Ok (mk_wst h next None)
    | Some (ODict _) => Ok (mk_wst h next (Some (MkAt (n, g))))
    | Some _ => Err EInvalidDataType
    end
  | Some (ODict _) => Ok (mk_wst h next (Some MkIn))
  | Some _ => Err EInvalidDataType
  end.
(** The dictionary of the characteristics *)
Definition chars_dict (h : heap) (w : ref) (p : mk_place) : res (list (list Z * obj)) :=
  match p with
  | MkAt r => dict_at h r
  | MkIn => do d <- dict_at h w; match get_key (bs "MK") d with Some (ODict v) => Ok v | Some _ => Err EInvalidDataType | None => UB end
  end.
Definition put_chars (h : heap) (w : ref) (p : mk_place) (v : list (list Z * obj)) : heap :=
  match p with
  | MkAt r => set r (Some (ODict v)) h
  | MkIn => match h w with Some (ODict d) => set w (Some (ODict (add_key (bs "MK") (ODict v) d))) h | _ => h end
  end.
(** GetOrCreateAppearanceCharacteristics, 60-70; the new dictionary is empty *)
Definition get_or_create (s : wst) (w : ref) : res (wst * mk_place) :=
  match w_chars s with
  | Some p => Ok (s, p)
  | None =>
    let r := (w_next s, 0) in
    do h <- set_key (set r (Some (ODict [])) (w_heap s)) w (bs "MK") (ORef (fst r) (snd r));
    Ok (mk_wst h (w_next s + 1) (Some (MkAt r)), MkAt r)
  end.

(** The entries: captions and colours, PdfAnnotationActionBase.cpp:59-154 *)
Inductive trait := TCaption | TRollover | TAlternate | TBorder | TBackground.
Definition trait_key (t : trait) : list Z :=
  match t with TCaption => bs "CA" | TRollover => bs "RC" | TAlternate => bs "AC" | TBorder => bs "BC" | TBackground => bs "BG" end.
(** Setting one through GetOrCreateAppearanceCharacteristics; what is set is an object or the error of making it. What was done before the
    error is kept *)
Definition put (s : wst) (w : ref) (t : trait) (v : res obj) : wst * res unit :=
  match get_or_create s w with
  | Ok (s1, p) =>
    match v with
    | Ok o =>
      match chars_dict (w_heap s1) w p with
      | Ok d => (mk_wst (put_chars (w_heap s1) w p (add_key (trait_key t) o d)) (w_next s1) (w_chars s1), Ok tt)
      | Err e => (s1, Err e) | UB => (s1, UB) | Fuel => (s1, Fuel)
      end
    | Err e => (s1, Err e) | UB => (s1, UB) | Fuel => (s1, Fuel)
    end
  | Err e => (s, Err e) | UB => (s, UB) | Fuel => (s, Fuel)
  end.
(** Clearing one through GetAppearanceCharacteristics, if there are some *)
Definition clear (s : wst) (w : ref) (t : trait) : wst * res unit :=
  match w_chars s with
  | None => (s, Ok tt)
  | Some p =>
    match chars_dict (w_heap s) w p with
    | Ok d => (mk_wst (put_chars (w_heap s) w p (snd (remove_key (trait_key t) d))) (w_next s) (w_chars s), Ok tt)
    | Err e => (s, Err e) | UB => (s, UB) | Fuel => (s, Fuel)
    end
  end.
(** What FindKeyParent finds for the getters *)
Definition find_trait (fuel : nat) (s : wst) (w : ref) (t : trait) : res (option obj) :=
  match w_chars s with
  | None => Ok None
  | Some p => do d <- chars_dict (w_heap s) w p; find_key_parent fuel (w_heap s) (trait_key t) d
  end.
(** GetCaption, GetRolloverCaption, GetAlternateCaption 103-154 *)
Definition get_caption (fuel : nat) (s : wst) (w : ref) (t : trait) : res (option (list Z)) :=
  do o <- find_trait fuel s w t; Ok (match o with Some (OStr _ x) => Some x | _ => None end).
(** GetBorderColor, GetBackgroundColor 67-101 *)
Definition get_trait_color (fuel : nat) (s : wst) (w : ref) (t : trait) : res color :=
  do o <- find_trait fuel s w t; get_color o.

(** The captions of a button, PdfButton.cpp:47-68, PdfPushButton.cpp:38-82. GetWidget, PdfField.h:207, gives a null pointer for a field that
    was not made from a widget *)
Definition button_set (s : wst) (w : option ref) (t : trait) (v : option (list Z)) : wst * res unit :=
  match w with
  | None => (s, UB)
  | Some w => match v with Some x => put s w t (Ok (OStr false x)) | None => clear s w t end
  end.
Definition button_get (fuel : nat) (s : wst) (w : option ref) (t : trait) : res (option (list Z)) :=
  match w with None => UB | Some w => get_caption fuel s w t end.
(** PdfField.cpp:30-78, PdfAnnotationWidget.cpp:37-52: the widget of a field that was made from a widget, from a form, or from an object that
    the form lists *)
Inductive origin := FromWidget (w : ref) | FromForm | FromObject.
Definition widget_of (o : origin) : option ref := match o with FromWidget w => Some w | FromForm | FromObject => None end.

(** A run of a program on one widget; what raises is caught and the program goes on *)
Inductive wop := Put (t : trait) (v : res obj) | Clear (t : trait).
Definition wstep (w : ref) (s : wst) (o : wop) : wst * res unit :=
  match o with Put t v => put s w t v | Clear t => clear s w t end.
Definition wrun (w : ref) (s : wst) (l : list wop) : wst := fold_left (fun s o => fst (wstep w s o)) l s.
