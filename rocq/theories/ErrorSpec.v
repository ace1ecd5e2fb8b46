(** What the names of errors are to be: those of the codes in the header, src/pdfmm/base/PdfError.h:28-93, "If you add an error code to this enum,
    please also add it to PdfError::ErrorName() and PdfError::ErrorMessage()" *)
From Coq Require Import String.
From Verif Require Import Base ErrorModel.
Local Open Scope Z_scope.

Definition declared (c : code) : list Z :=
  match c with
  | CUnknown => bs "Unknown"
  | CInvalidHandle => bs "InvalidHandle"
  | CFileNotFound => bs "FileNotFound"
  | CInvalidDeviceOperation => bs "InvalidDeviceOperation"
  | CUnexpectedEOF => bs "UnexpectedEOF"
  | COutOfMemory => bs "OutOfMemory"
  | CValueOutOfRange => bs "ValueOutOfRange"
  | CInternalLogic => bs "InternalLogic"
  | CInvalidEnumValue => bs "InvalidEnumValue"
  | CBrokenFile => bs "BrokenFile"
  | CPageNotFound => bs "PageNotFound"
  | CNoPdfFile => bs "NoPdfFile"
  | CNoXRef => bs "NoXRef"
  | CNoTrailer => bs "NoTrailer"
  | CNoNumber => bs "NoNumber"
  | CNoObject => bs "NoObject"
  | CNoEOFToken => bs "NoEOFToken"
  | CInvalidTrailerSize => bs "InvalidTrailerSize"
  | CInvalidDataType => bs "InvalidDataType"
  | CInvalidXRef => bs "InvalidXRef"
  | CInvalidXRefStream => bs "InvalidXRefStream"
  | CInvalidXRefType => bs "InvalidXRefType"
  | CInvalidPredictor => bs "InvalidPredictor"
  | CInvalidStrokeStyle => bs "InvalidStrokeStyle"
  | CInvalidHexString => bs "InvalidHexString"
  | CInvalidStream => bs "InvalidStream"
  | CInvalidStreamLength => bs "InvalidStreamLength"
  | CInvalidKey => bs "InvalidKey"
  | CInvalidName => bs "InvalidName"
  | CInvalidEncryptionDict => bs "InvalidEncryptionDict"
  | CInvalidPassword => bs "InvalidPassword"
  | CInvalidFontFile => bs "InvalidFontFile"
  | CInvalidContentStream => bs "InvalidContentStream"
  | CUnsupportedFilter => bs "UnsupportedFilter"
  | CUnsupportedFontFormat => bs "UnsupportedFontFormat"
  | CActionAlreadyPresent => bs "ActionAlreadyPresent"
  | CWrongDestinationType => bs "WrongDestinationType"
  | CMissingEndStream => bs "MissingEndStream"
  | CDate => bs "Date"
  | CFlate => bs "Flate"
  | CFreeType => bs "FreeType"
  | CSignatureError => bs "SignatureError"
  | CUnsupportedImageFormat => bs "UnsupportedImageFormat"
  | CCannotConvertColor => bs "CannotConvertColor"
  | CNotImplemented => bs "NotImplemented"
  | CDestinationAlreadyPresent => bs "DestinationAlreadyPresent"
  | CChangeOnImmutable => bs "ChangeOnImmutable"
  | CNotCompiled => bs "NotCompiled"
  | COutlineItemAlreadyPresent => bs "OutlineItemAlreadyPresent"
  | CNotLoadedForUpdate => bs "NotLoadedForUpdate"
  | CCannotEncryptedForUpdate => bs "CannotEncryptedForUpdate"
  | CXmpMetadata => bs "XmpMetadata"
  end.
Definition qualified (n : list Z) : list Z := bs "PdfErrorCode::" ++ n.
(** The path of a file under a directory *)
Definition under (dir rest path : list Z) : Prop := path = dir ++ 47 :: rest.
