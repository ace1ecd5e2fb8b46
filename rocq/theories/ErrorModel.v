(** Errors: src/pdfmm/base/PdfError.h:28-93, PdfError.cpp. Line numbers are left out of the frames. *)
From Coq Require Import String.
From Verif Require Import Base.
Local Open Scope Z_scope.

(** PdfErrorCode, PdfError.h:28-93 *)
Inductive code :=
  CUnknown | CInvalidHandle | CFileNotFound | CInvalidDeviceOperation | CUnexpectedEOF | COutOfMemory | CValueOutOfRange | CInternalLogic |
  CInvalidEnumValue | CBrokenFile | CPageNotFound | CNoPdfFile | CNoXRef | CNoTrailer | CNoNumber | CNoObject |
  CNoEOFToken | CInvalidTrailerSize | CInvalidDataType | CInvalidXRef | CInvalidXRefStream | CInvalidXRefType | CInvalidPredictor | CInvalidStrokeStyle |
  CInvalidHexString | CInvalidStream | CInvalidStreamLength | CInvalidKey | CInvalidName | CInvalidEncryptionDict | CInvalidPassword | CInvalidFontFile |
  CInvalidContentStream | CUnsupportedFilter | CUnsupportedFontFormat | CActionAlreadyPresent | CWrongDestinationType | CMissingEndStream | CDate | CFlate |
  CFreeType | CSignatureError | CUnsupportedImageFormat | CCannotConvertColor | CNotImplemented | CDestinationAlreadyPresent | CChangeOnImmutable | CNotCompiled |
  COutlineItemAlreadyPresent | CNotLoadedForUpdate | CCannotEncryptedForUpdate | CXmpMetadata.
(** The codes in the order of their numbers *)
Definition codes : list code :=
  [CUnknown; CInvalidHandle; CFileNotFound; CInvalidDeviceOperation; CUnexpectedEOF; COutOfMemory; CValueOutOfRange; CInternalLogic;
   CInvalidEnumValue; CBrokenFile; CPageNotFound; CNoPdfFile; CNoXRef; CNoTrailer; CNoNumber; CNoObject;
   CNoEOFToken; CInvalidTrailerSize; CInvalidDataType; CInvalidXRef; CInvalidXRefStream; CInvalidXRefType; CInvalidPredictor; CInvalidStrokeStyle;
   CInvalidHexString; CInvalidStream; CInvalidStreamLength; CInvalidKey; CInvalidName; CInvalidEncryptionDict; CInvalidPassword; CInvalidFontFile;
   CInvalidContentStream; CUnsupportedFilter; CUnsupportedFontFormat; CActionAlreadyPresent; CWrongDestinationType; CMissingEndStream; CDate; CFlate;
   CFreeType; CSignatureError; CUnsupportedImageFormat; CCannotConvertColor; CNotImplemented; CDestinationAlreadyPresent; CChangeOnImmutable; CNotCompiled;
   COutlineItemAlreadyPresent; CNotLoadedForUpdate; CCannotEncryptedForUpdate; CXmpMetadata].
(** ErrorName, PdfError.cpp:92-203; [None]: the empty view, whose data is a null pointer *)
Definition error_name (c : code) : option (list Z) :=
  match c with
  | CUnknown => Some (bs "PdfErrorCode::Unknown")
  | CInvalidHandle => Some (bs "PdfErrorCode::InvalidHandle")
  | CFileNotFound => Some (bs "PdfErrorCode::FileNotFound")
  | CInvalidDeviceOperation => Some (bs "PdfErrorCode::InvalidDeviceOperation")
  | CUnexpectedEOF => Some (bs "PdfErrorCode::UnexpectedEOF")
  | COutOfMemory => Some (bs "PdfErrorCode::OutOfMemory")
  | CValueOutOfRange => Some (bs "PdfErrorCode::ValueOutOfRange")
  | CInternalLogic => Some (bs "PdfErrorCode::InternalLogic")
  | CInvalidEnumValue => Some (bs "PdfErrorCode::InvalidEnumValue")
  | CBrokenFile => Some (bs "PdfErrorCode::BrokenFile")
  | CPageNotFound => Some (bs "PdfErrorCode::PageNotFound")
  | CNoPdfFile => Some (bs "PdfErrorCode::NoPdfFile")
  | CNoXRef => Some (bs "PdfErrorCode::NoXRef")
  | CNoTrailer => Some (bs "PdfErrorCode::NoTrailer")
  | CNoNumber => Some (bs "PdfErrorCode::NoNumber")
  | CNoObject => Some (bs "PdfErrorCode::NoObject")
  | CNoEOFToken => Some (bs "PdfErrorCode::NoEOFToken")
  | CInvalidTrailerSize => Some (bs "PdfErrorCode::InvalidTrailerSize")
  | CInvalidDataType => Some (bs "PdfErrorCode::InvalidDataType")
  | CInvalidXRef => Some (bs "PdfErrorCode::InvalidXRef")
  | CInvalidXRefStream => Some (bs "PdfErrorCode::InvalidXRefStream")
  | CInvalidXRefType => Some (bs "PdfErrorCode::InvalidXRefType")
  | CInvalidPredictor => Some (bs "PdfErrorCode::InvalidPredictor")
  | CInvalidStrokeStyle => Some (bs "PdfErrorCode::InvalidStrokeStyle")
  | CInvalidHexString => Some (bs "PdfErrorCode::InvalidHexString")
  | CInvalidStream => Some (bs "PdfErrorCode::InvalidStream")
  | CInvalidStreamLength => Some (bs "PdfErrorCode::InvalidStream")
  | CInvalidKey => Some (bs "PdfErrorCode::InvalidKey")
  | CInvalidName => Some (bs "PdfErrorCode::InvalidName")
  | CInvalidEncryptionDict => Some (bs "PdfErrorCode::InvalidEncryptionDict")
  | CInvalidPassword => Some (bs "PdfErrorCode::InvalidPassword")
  | CInvalidFontFile => Some (bs "PdfErrorCode::InvalidFontFile")
  | CInvalidContentStream => Some (bs "PdfErrorCode::InvalidContentStream")
  | CUnsupportedFilter => Some (bs "PdfErrorCode::UnsupportedFilter")
  | CUnsupportedFontFormat => Some (bs "PdfErrorCode::UnsupportedFontFormat")
  | CActionAlreadyPresent => Some (bs "PdfErrorCode::ActionAlreadyPresent")
  | CWrongDestinationType => Some (bs "PdfErrorCode::WrongDestinationType")
  | CMissingEndStream => Some (bs "PdfErrorCode::MissingEndStream")
  | CDate => Some (bs "PdfErrorCode::Date")
  | CFlate => Some (bs "PdfErrorCode::Flate")
  | CFreeType => Some (bs "PdfErrorCode::FreeType")
  | CSignatureError => Some (bs "PdfErrorCode::SignatureError")
  | CUnsupportedImageFormat => Some (bs "PdfErrorCode::UnsupportedImageFormat")
  | CCannotConvertColor => Some (bs "PdfErrorCode::CannotConvertColor")
  | CNotImplemented => Some (bs "PdfErrorCode::NotImplemented")
  | CDestinationAlreadyPresent => Some (bs "PdfErrorCode::DestinationAlreadyPresent")
  | CChangeOnImmutable => Some (bs "PdfErrorCode::ChangeOnImmutable")
  | CNotCompiled => Some (bs "PdfErrorCode::NotCompiled")
  | COutlineItemAlreadyPresent => Some (bs "PdfErrorCode::OutlineItemAlreadyPresent")
  | CNotLoadedForUpdate => Some (bs "PdfErrorCode::NotLoadedForUpdate")
  | CCannotEncryptedForUpdate => Some (bs "PdfErrorCode::CannotEncryptedForUpdate")
  | CXmpMetadata => None
  end.
(** ErrorMessage, PdfError.cpp:205-305 *)
Definition error_message (c : code) : option (list Z) :=
  match c with
  | CUnknown => Some (bs "Error code unknown.")
  | CInvalidHandle => Some (bs "A nullptr handle was passed, but initialized data was expected.")
  | CFileNotFound => Some (bs "The specified file was not found.")
  | CInvalidDeviceOperation => Some (bs "Tried to do something unsupported to an I/O device like seek a non-seekable input device")
  | CUnexpectedEOF => Some (bs "End of file was reached unxexpectedly.")
  | COutOfMemory => Some (bs "pdfmm is out of memory.")
  | CValueOutOfRange => Some (bs "The passed value is out of range.")
  | CInternalLogic => Some (bs "An internal error occurred.")
  | CInvalidEnumValue => Some (bs "An invalid enum value was specified.")
  | CBrokenFile => Some (bs "The file content is broken.")
  | CPageNotFound => Some (bs "The requested page could not be found in the PDF.")
  | CNoPdfFile => Some (bs "This is not a PDF file.")
  | CNoXRef => Some (bs "No XRef table was found in the PDF file.")
  | CNoTrailer => Some (bs "No trailer was found in the PDF file.")
  | CNoNumber => Some (bs "A number was expected but not found.")
  | CNoObject => Some (bs "A object was expected but not found.")
  | CNoEOFToken => Some (bs "No EOF Marker was found in the PDF file.")
  | CInvalidTrailerSize => None
  | CInvalidDataType => None
  | CInvalidXRef => None
  | CInvalidXRefStream => None
  | CInvalidXRefType => None
  | CInvalidPredictor => None
  | CInvalidStrokeStyle => None
  | CInvalidHexString => None
  | CInvalidStream => None
  | CInvalidStreamLength => None
  | CInvalidKey => None
  | CInvalidName => None
  | CInvalidEncryptionDict => Some (bs "The encryption dictionary is invalid or misses a required key.")
  | CInvalidPassword => Some (bs "The password used to open the PDF file was invalid.")
  | CInvalidFontFile => Some (bs "The font file is invalid.")
  | CInvalidContentStream => Some (bs "The content stream is invalid due to mismatched context pairing or other problems.")
  | CUnsupportedFilter => None
  | CUnsupportedFontFormat => Some (bs "This font format is not supported by pdfmm.")
  | CActionAlreadyPresent => Some (bs "Outlines can have either destinations or actions.")
  | CWrongDestinationType => Some (bs "The requested field is not available for the given destination type")
  | CMissingEndStream => None
  | CDate => None
  | CFlate => Some (bs "ZLib returned an error.")
  | CFreeType => Some (bs "FreeType returned an error.")
  | CSignatureError => Some (bs "The signature contains an error.")
  | CUnsupportedImageFormat => Some (bs "This image format is not supported by pdfmm.")
  | CCannotConvertColor => Some (bs "This color format cannot be converted.")
  | CNotImplemented => Some (bs "This feature is currently not implemented.")
  | CDestinationAlreadyPresent => Some (bs "Outlines can have either destinations or actions.")
  | CChangeOnImmutable => Some (bs "Changing values on immutable objects is not allowed.")
  | CNotCompiled => Some (bs "This feature was disabled during compile time.")
  | COutlineItemAlreadyPresent => Some (bs "Given OutlineItem already present in destination tree.")
  | CNotLoadedForUpdate => Some (bs "The document had not been loaded for update.")
  | CCannotEncryptedForUpdate => Some (bs "Cannot load encrypted documents for update.")
  | CXmpMetadata => Some (bs "Error while reading or writing XMP metadata")
  end.
(** what, 87-90: the pointer that is returned *)
Definition what (c : code) : option (list Z) := error_name c.

(** PdfErrorInfo and PdfError: the code and the frames, the last that was added first *)
Record frame := mk_frame { f_path : list Z; f_info : list Z }.
Record error := mk_error { e_code : code; e_frames : list frame }.
(** The constructor, 32-37, and AddToCallstack, 307-310 *)
Definition raise (c : code) (path info : list Z) : error := mk_error c [mk_frame path info].
Definition add_frame (e : error) (path info : list Z) : error := mk_error (e_code e) (mk_frame path info :: e_frames e).
(** GetFilePath, 312-315: what follows the first [off] bytes; substr raises std::out_of_range when there are fewer. [off] is the length of the
    path of the sources and 1, 18-27 *)
Inductive outcome (A : Type) := Done (a : A) | OutOfRange.
Arguments Done {A}. Arguments OutOfRange {A}.
Definition file_path (off : nat) (f : frame) : outcome (list Z) := if (length (f_path f) <? off)%nat then OutOfRange else Done (skipn off (f_path f)).
(** PrintErrorMsg, 56-85: whether it gets to the end *)
Fixpoint print_frames (off : nat) (l : list frame) : outcome unit :=
  match l with [] => Done tt | f :: t => match file_path off f with Done _ => print_frames off t | OutOfRange => OutOfRange end end.
Definition print_error (off : nat) (e : error) : outcome unit := print_frames off (e_frames e).
