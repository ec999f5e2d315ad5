(** The table of class descriptions compiled into the library, transcribed.
    rdict/streamers/streamers_db_generated.rs (all of it), streamers_db_gen_helpers.rs
    and db.rs. *)
From Verif Require Export TreeSession.

(** streamers_db_gen_helpers.rs 8-22 [ElementStrings]; [class] and [fTitle] are never
    used (each title is replaced by the empty one). *)
Record estr := mkES {
  es_name : bytes; es_size : Z; es_type : Z; es_tname : bytes; es_base : option Z;
  es_cname : option bytes; es_ccls : option bytes; es_cvers : option Z; es_stl : option Z }.
(** streamers_db_gen_helpers.rs 153-181 [ClassStrings] with its elements. *)
Record cstr := mkCL { cl_name : bytes; cl_sum : Z; cl_vers : Z; cl_els : list estr }.

(** streamers_db_gen_helpers.rs 33-146 [build_streamer], with the enum as its [i32]
    (rmeta/consts.rs 53-127).  [Panic] is [unimplemented!] or a failed [unwrap]. *)
Definition build_streamer (x : estr) : res streamer :=
  let e := mkEl (new_named (es_name x) []) (es_type x) (es_size x) 0 0 (repeat 0 5) (es_tname x) in
  let t := es_type x in
  let among l := existsb (Z.eqb t) l in
  if among [16; 3; 4; 8; 6; 2; 5; 19; 9; 13; 15; 12; 11; 1; 7; 18] then Ok (SBasicType e)
  else if among [67; 0; 66] then
    match es_base x with Some v => Ok (SBase e v) | None => Panic end
  else if among [56; 41; 42; 43; 44; 45; 46; 47; 48; 51; 53] then
    match es_cvers x, es_cname x, es_ccls x with
    | Some v, Some n, Some c => Ok (SBasicPointer e v n c)
    | _, _, _ => Panic
    end
  else if t =? 62 then Ok (SObjectAny e)
  else if t =? 61 then Ok (SObject e)
  else if among [64; 63] then Ok (SObjectPointer e)
  else if t =? 65 then Ok (SString e)
  else if t =? 300 then
    match es_stl x with
    | Some v => Ok (SStl (mkEl (new_named (es_name x) []) 500 (es_size x) 0 0 (repeat 0 5) (es_tname x)) v 61)
    | None => Panic
    end
  else if among [23; 31] then Ok (SBasicType e)
  else Panic.

(** Model only: [map] with early exit *)
Fixpoint res_all {A B} (f : A -> res B) (l : list A) : res (list B) :=
  match l with [] => Ok [] | a :: r => b <-? f a ;; bs' <-? res_all f r ;; Ok (b :: bs') end.
(** rdict/mod.rs 251-260 [StreamerInfo::new] and streamers_db_gen_helpers.rs 162-171
    [rvers]. *)
Definition build_class (c : cstr) : res sinfo :=
  els <-? res_all build_streamer (cl_els c) ;;
  Ok (mkSI (new_named (cl_name c) []) (cl_sum c) (if cl_vers c <? 0 then 1 else cl_vers c) els).

(** streamers_db_generated.rs, class by class. *)
Definition raw_table : list cstr := [
  mkCL (bs "TAttAxis") 1550843710 (4) [
    mkES (bs "fNdivisions") 4 3 (bs "int") None None None None None;
    mkES (bs "fAxisColor") 2 2 (bs "short") None None None None None;
    mkES (bs "fLabelColor") 2 2 (bs "short") None None None None None;
    mkES (bs "fLabelFont") 2 2 (bs "short") None None None None None;
    mkES (bs "fLabelOffset") 4 5 (bs "float") None None None None None;
    mkES (bs "fLabelSize") 4 5 (bs "float") None None None None None;
    mkES (bs "fTickLength") 4 5 (bs "float") None None None None None;
    mkES (bs "fTitleOffset") 4 5 (bs "float") None None None None None;
    mkES (bs "fTitleSize") 4 5 (bs "float") None None None None None;
    mkES (bs "fTitleColor") 2 2 (bs "short") None None None None None;
    mkES (bs "fTitleFont") 2 2 (bs "short") None None None None None];
  mkCL (bs "TAttBBox2D") 2443772 (0) [];
  mkCL (bs "TAttFill") 4292422290 (2) [
    mkES (bs "fFillColor") 2 2 (bs "short") None None None None None;
    mkES (bs "fFillStyle") 2 2 (bs "short") None None None None None];
  mkCL (bs "TAttLine") 2483504457 (2) [
    mkES (bs "fLineColor") 2 2 (bs "short") None None None None None;
    mkES (bs "fLineStyle") 2 2 (bs "short") None None None None None;
    mkES (bs "fLineWidth") 2 2 (bs "short") None None None None None];
  mkCL (bs "TAttMarker") 689802220 (2) [
    mkES (bs "fMarkerColor") 2 2 (bs "short") None None None None None;
    mkES (bs "fMarkerStyle") 2 2 (bs "short") None None None None None;
    mkES (bs "fMarkerSize") 4 5 (bs "float") None None None None None];
  mkCL (bs "TAttPad") 2803232785 (4) [
    mkES (bs "fLeftMargin") 4 5 (bs "float") None None None None None;
    mkES (bs "fRightMargin") 4 5 (bs "float") None None None None None;
    mkES (bs "fBottomMargin") 4 5 (bs "float") None None None None None;
    mkES (bs "fTopMargin") 4 5 (bs "float") None None None None None;
    mkES (bs "fXfile") 4 5 (bs "float") None None None None None;
    mkES (bs "fYfile") 4 5 (bs "float") None None None None None;
    mkES (bs "fAfile") 4 5 (bs "float") None None None None None;
    mkES (bs "fXstat") 4 5 (bs "float") None None None None None;
    mkES (bs "fYstat") 4 5 (bs "float") None None None None None;
    mkES (bs "fAstat") 4 5 (bs "float") None None None None None;
    mkES (bs "fFrameFillColor") 2 2 (bs "short") None None None None None;
    mkES (bs "fFrameLineColor") 2 2 (bs "short") None None None None None;
    mkES (bs "fFrameFillStyle") 2 2 (bs "short") None None None None None;
    mkES (bs "fFrameLineStyle") 2 2 (bs "short") None None None None None;
    mkES (bs "fFrameLineWidth") 2 2 (bs "short") None None None None None;
    mkES (bs "fFrameBorderSize") 2 2 (bs "short") None None None None None;
    mkES (bs "fFrameBorderMode") 4 3 (bs "int") None None None None None];
  mkCL (bs "TDatime") 3024515566 (1) [
    mkES (bs "fDatime") 4 13 (bs "unsigned int") None None None None None];
  mkCL (bs "TNamed") 3753331260 (1) [
    mkES (bs "TObject") 0 66 (bs "BASE") (Some (1)) None None None None;
    mkES (bs "fName") 24 65 (bs "TString") None None None None None;
    mkES (bs "fTitle") 24 65 (bs "TString") None None None None None];
  mkCL (bs "TObject") 2417737773 (1) [
    mkES (bs "fUniqueID") 4 13 (bs "unsigned int") None None None None None;
    mkES (bs "fBits") 4 15 (bs "unsigned int") None None None None None];
  mkCL (bs "TObjString") 2626570240 (1) [
    mkES (bs "TObject") 0 66 (bs "BASE") (Some (1)) None None None None;
    mkES (bs "fString") 24 65 (bs "TString") None None None None None];
  mkCL (bs "TProcessID") 729740665 (1) [
    mkES (bs "TNamed") 0 67 (bs "BASE") (Some (1)) None None None None];
  mkCL (bs "TProcessUUID") 2599661073 (1) [
    mkES (bs "TProcessID") 0 0 (bs "BASE") (Some (1)) None None None None;
    mkES (bs "fUUIDs") 8 64 (bs "TList*") None None None None None;
    mkES (bs "fActive") 8 64 (bs "TBits*") None None None None None];
  mkCL (bs "TQObject") 274076 (1) [];
  mkCL (bs "TRef") 2440395009 (1) [
    mkES (bs "TObject") 0 66 (bs "BASE") (Some (1)) None None None None];
  mkCL (bs "TString") 95257 (2) [];
  mkCL (bs "TUUID") 3528368475 (1) [
    mkES (bs "fTimeLow") 4 13 (bs "unsigned int") None None None None None;
    mkES (bs "fTimeMid") 2 12 (bs "unsigned short") None None None None None;
    mkES (bs "fTimeHiAndVersion") 2 12 (bs "unsigned short") None None None None None;
    mkES (bs "fClockSeqHiAndReserved") 1 11 (bs "unsigned char") None None None None None;
    mkES (bs "fClockSeqLow") 1 11 (bs "unsigned char") None None None None None;
    mkES (bs "fNode") 6 31 (bs "unsigned char") None None None None None];
  mkCL (bs "TVirtualPad") 686614457 (3) [
    mkES (bs "TObject") 0 66 (bs "BASE") (Some (1)) None None None None;
    mkES (bs "TAttLine") 0 0 (bs "BASE") (Some (2)) None None None None;
    mkES (bs "TAttFill") 0 0 (bs "BASE") (Some (2)) None None None None;
    mkES (bs "TAttPad") 0 0 (bs "BASE") (Some (4)) None None None None;
    mkES (bs "TQObject") 0 0 (bs "BASE") (Some (1)) None None None None];
  mkCL (bs "TArray") 7348658 (1) [
    mkES (bs "fN") 4 3 (bs "int") None None None None None];
  mkCL (bs "TArrayC") 2928122166 (1) [
    mkES (bs "TArray") 0 0 (bs "BASE") (Some (1)) None None None None;
    mkES (bs "fArray") 1 41 (bs "char*") None (Some (bs "fN")) (Some (bs "TArray")) (Some (1)) None];
  mkCL (bs "TArrayS") 56398612 (1) [
    mkES (bs "TArray") 0 0 (bs "BASE") (Some (1)) None None None None;
    mkES (bs "fArray") 2 42 (bs "short*") None (Some (bs "fN")) (Some (bs "TArray")) (Some (1)) None];
  mkCL (bs "TArrayI") 3654644167 (1) [
    mkES (bs "TArray") 0 0 (bs "BASE") (Some (1)) None None None None;
    mkES (bs "fArray") 4 43 (bs "int*") None (Some (bs "fN")) (Some (bs "TArray")) (Some (1)) None];
  mkCL (bs "TArrayL") 4244419721 (1) [
    mkES (bs "TArray") 0 0 (bs "BASE") (Some (1)) None None None None;
    mkES (bs "fArray") 8 44 (bs "long*") None (Some (bs "fN")) (Some (bs "TArray")) (Some (1)) None];
  mkCL (bs "TArrayL64") 417793940 (1) [
    mkES (bs "TArray") 0 0 (bs "BASE") (Some (1)) None None None None;
    mkES (bs "fArray") 8 56 (bs "Long64_t*") None (Some (bs "fN")) (Some (bs "TArray")) (Some (1)) None];
  mkCL (bs "TArrayF") 1510733553 (1) [
    mkES (bs "TArray") 0 0 (bs "BASE") (Some (1)) None None None None;
    mkES (bs "fArray") 4 45 (bs "float*") None (Some (bs "fN")) (Some (bs "TArray")) (Some (1)) None];
  mkCL (bs "TArrayD") 1899622196 (1) [
    mkES (bs "TArray") 0 0 (bs "BASE") (Some (1)) None None None None;
    mkES (bs "fArray") 8 48 (bs "double*") None (Some (bs "fN")) (Some (bs "TArray")) (Some (1)) None];
  mkCL (bs "TBits") 242629704 (1) [
    mkES (bs "TObject") 0 66 (bs "BASE") (Some (1)) None None None None;
    mkES (bs "fNbits") 4 13 (bs "unsigned int") None None None None None;
    mkES (bs "fNbytes") 4 13 (bs "unsigned int") None None None None None;
    mkES (bs "fAllBits") 1 51 (bs "unsigned char*") None (Some (bs "fNbytes")) (Some (bs "TBits")) (Some (1)) None];
  mkCL (bs "TCollection") 1474546588 (3) [
    mkES (bs "TObject") 0 66 (bs "BASE") (Some (1)) None None None None;
    mkES (bs "fName") 24 65 (bs "TString") None None None None None;
    mkES (bs "fSize") 4 3 (bs "int") None None None None None];
  mkCL (bs "TClonesArray") 3066088035 (4) [
    mkES (bs "TObjArray") 0 0 (bs "BASE") (Some (3)) None None None None];
  mkCL (bs "TList") 1774568379 (5) [
    mkES (bs "TSeqCollection") 0 0 (bs "BASE") (Some (0)) None None None None];
  mkCL (bs "THashList") 3430828481 (0) [
    mkES (bs "TList") 0 0 (bs "BASE") (Some (5)) None None None None];
  mkCL (bs "THashTable") 3776773014 (0) [
    mkES (bs "TCollection") 0 0 (bs "BASE") (Some (3)) None None None None];
  mkCL (bs "TMap") 4274299784 (3) [
    mkES (bs "TCollection") 0 0 (bs "BASE") (Some (3)) None None None None;
    mkES (bs "fTable") 8 64 (bs "THashTable*") None None None None None];
  mkCL (bs "TObjArray") 2845730130 (3) [
    mkES (bs "TSeqCollection") 0 0 (bs "BASE") (Some (0)) None None None None;
    mkES (bs "fLowerBound") 4 3 (bs "int") None None None None None;
    mkES (bs "fLast") 4 3 (bs "int") None None None None None];
  mkCL (bs "TRefArray") 1207554269 (1) [
    mkES (bs "TSeqCollection") 0 0 (bs "BASE") (Some (0)) None None None None;
    mkES (bs "fPID") 8 64 (bs "TProcessID*") None None None None None;
    mkES (bs "fUIDs") 4 53 (bs "unsigned int*") None (Some (bs "fSize")) (Some (bs "TCollection")) (Some (3)) None;
    mkES (bs "fLowerBound") 4 3 (bs "int") None None None None None;
    mkES (bs "fLast") 4 3 (bs "int") None None None None None];
  mkCL (bs "TRefTable") 2357812101 (3) [
    mkES (bs "TObject") 0 66 (bs "BASE") (Some (1)) None None None None;
    mkES (bs "fSize") 4 3 (bs "int") None None None None None;
    mkES (bs "fParents") 8 64 (bs "TObjArray*") None None None None None;
    mkES (bs "fOwner") 8 64 (bs "TObject*") None None None None None;
    mkES (bs "fProcessGUIDs") 24 300 (bs "vector<string>") None None None None (Some (1))];
  mkCL (bs "TSeqCollection") 4234951622 (0) [
    mkES (bs "TCollection") 0 0 (bs "BASE") (Some (3)) None None None None];
  mkCL (bs "TStreamerInfo") 2421581955 (9) [
    mkES (bs "TVirtualStreamerInfo") 0 0 (bs "BASE") (Some (6)) None None None None;
    mkES (bs "fCheckSum") 4 13 (bs "unsigned int") None None None None None;
    mkES (bs "fClassVersion") 4 3 (bs "int") None None None None None;
    mkES (bs "fElements") 8 64 (bs "TObjArray*") None None None None None];
  mkCL (bs "TStreamerElement") 3708727891 (4) [
    mkES (bs "TNamed") 0 67 (bs "BASE") (Some (1)) None None None None;
    mkES (bs "fType") 4 3 (bs "int") None None None None None;
    mkES (bs "fSize") 4 3 (bs "int") None None None None None;
    mkES (bs "fArrayLength") 4 3 (bs "int") None None None None None;
    mkES (bs "fArrayDim") 4 3 (bs "int") None None None None None;
    mkES (bs "fMaxIndex") 20 23 (bs "int") None None None None None;
    mkES (bs "fTypeName") 24 65 (bs "TString") None None None None None];
  mkCL (bs "TStreamerBase") 153556400 (3) [
    mkES (bs "TStreamerElement") 0 0 (bs "BASE") (Some (4)) None None None None;
    mkES (bs "fBaseVersion") 4 3 (bs "int") None None None None None];
  mkCL (bs "TStreamerBasicType") 4124421197 (2) [
    mkES (bs "TStreamerElement") 0 0 (bs "BASE") (Some (4)) None None None None];
  mkCL (bs "TStreamerBasicPointer") 51937339 (2) [
    mkES (bs "TStreamerElement") 0 0 (bs "BASE") (Some (4)) None None None None;
    mkES (bs "fCountVersion") 4 3 (bs "int") None None None None None;
    mkES (bs "fCountName") 24 65 (bs "TString") None None None None None;
    mkES (bs "fCountClass") 24 65 (bs "TString") None None None None None];
  mkCL (bs "TStreamerLoop") 4082153692 (2) [
    mkES (bs "TStreamerElement") 0 0 (bs "BASE") (Some (4)) None None None None;
    mkES (bs "fCountVersion") 4 3 (bs "int") None None None None None;
    mkES (bs "fCountName") 24 65 (bs "TString") None None None None None;
    mkES (bs "fCountClass") 24 65 (bs "TString") None None None None None];
  mkCL (bs "TStreamerObject") 1651163444 (2) [
    mkES (bs "TStreamerElement") 0 0 (bs "BASE") (Some (4)) None None None None];
  mkCL (bs "TStreamerObjectPointer") 1575431499 (2) [
    mkES (bs "TStreamerElement") 0 0 (bs "BASE") (Some (4)) None None None None];
  mkCL (bs "TStreamerObjectAny") 150466384 (2) [
    mkES (bs "TStreamerElement") 0 0 (bs "BASE") (Some (4)) None None None None];
  mkCL (bs "TStreamerObjectAnyPointer") 905975423 (1) [
    mkES (bs "TStreamerElement") 0 0 (bs "BASE") (Some (4)) None None None None];
  mkCL (bs "TStreamerString") 2695532894 (2) [
    mkES (bs "TStreamerElement") 0 0 (bs "BASE") (Some (4)) None None None None];
  mkCL (bs "TStreamerSTL") 2314799318 (3) [
    mkES (bs "TStreamerElement") 0 0 (bs "BASE") (Some (4)) None None None None;
    mkES (bs "fSTLtype") 4 3 (bs "int") None None None None None;
    mkES (bs "fCtype") 4 3 (bs "int") None None None None None];
  mkCL (bs "TStreamerSTLstring") 640610209 (2) [
    mkES (bs "TStreamerSTL") 0 0 (bs "BASE") (Some (3)) None None None None];
  mkCL (bs "TStreamerArtificial") 1445575625 (0) [
    mkES (bs "TStreamerElement") 0 0 (bs "BASE") (Some (4)) None None None None];
  mkCL (bs "TGraph") 100136037 (4) [
    mkES (bs "TNamed") 0 67 (bs "BASE") (Some (1)) None None None None;
    mkES (bs "TAttLine") 0 0 (bs "BASE") (Some (2)) None None None None;
    mkES (bs "TAttFill") 0 0 (bs "BASE") (Some (2)) None None None None;
    mkES (bs "TAttMarker") 0 0 (bs "BASE") (Some (2)) None None None None;
    mkES (bs "fNpoints") 4 6 (bs "int") None None None None None;
    mkES (bs "fX") 8 48 (bs "double*") None (Some (bs "fNpoints")) (Some (bs "TGraph")) (Some (4)) None;
    mkES (bs "fY") 8 48 (bs "double*") None (Some (bs "fNpoints")) (Some (bs "TGraph")) (Some (4)) None;
    mkES (bs "fFunctions") 8 64 (bs "TList*") None None None None None;
    mkES (bs "fHistogram") 8 64 (bs "TH1F*") None None None None None;
    mkES (bs "fMinimum") 8 8 (bs "double") None None None None None;
    mkES (bs "fMaximum") 8 8 (bs "double") None None None None None];
  mkCL (bs "TDirectory") 513503088 (5) [
    mkES (bs "TNamed") 0 67 (bs "BASE") (Some (1)) None None None None;
    mkES (bs "fMother") 8 64 (bs "TObject*") None None None None None;
    mkES (bs "fList") 8 64 (bs "TList*") None None None None None;
    mkES (bs "fUUID") 32 62 (bs "TUUID") None None None None None];
  mkCL (bs "TDirectoryFile") 3214885950 (5) [
    mkES (bs "TDirectory") 0 0 (bs "BASE") (Some (5)) None None None None;
    mkES (bs "fModified") 1 18 (bs "bool") None None None None None;
    mkES (bs "fWritable") 1 18 (bs "bool") None None None None None;
    mkES (bs "fDatimeC") 16 62 (bs "TDatime") None None None None None;
    mkES (bs "fDatimeM") 16 62 (bs "TDatime") None None None None None;
    mkES (bs "fNbytesKeys") 4 3 (bs "int") None None None None None;
    mkES (bs "fNbytesName") 4 3 (bs "int") None None None None None;
    mkES (bs "fBufferSize") 4 3 (bs "int") None None None None None;
    mkES (bs "fSeekDir") 8 16 (bs "Long64_t") None None None None None;
    mkES (bs "fSeekParent") 8 16 (bs "Long64_t") None None None None None;
    mkES (bs "fSeekKeys") 8 16 (bs "Long64_t") None None None None None;
    mkES (bs "fFile") 8 64 (bs "TFile*") None None None None None;
    mkES (bs "fKeys") 8 64 (bs "TList*") None None None None None];
  mkCL (bs "TFile") 2489901954 (8) [
    mkES (bs "TDirectoryFile") 0 0 (bs "BASE") (Some (5)) None None None None;
    mkES (bs "fSumBuffer") 8 8 (bs "double") None None None None None;
    mkES (bs "fSum2Buffer") 8 8 (bs "double") None None None None None;
    mkES (bs "fBytesWrite") 8 16 (bs "Long64_t") None None None None None;
    mkES (bs "fBytesRead") 8 16 (bs "Long64_t") None None None None None;
    mkES (bs "fBytesReadExtra") 8 16 (bs "Long64_t") None None None None None;
    mkES (bs "fBEGIN") 8 16 (bs "Long64_t") None None None None None;
    mkES (bs "fEND") 8 16 (bs "Long64_t") None None None None None;
    mkES (bs "fSeekFree") 8 16 (bs "Long64_t") None None None None None;
    mkES (bs "fSeekInfo") 8 16 (bs "Long64_t") None None None None None;
    mkES (bs "fD") 4 3 (bs "int") None None None None None;
    mkES (bs "fVersion") 4 3 (bs "int") None None None None None;
    mkES (bs "fCompress") 4 3 (bs "int") None None None None None;
    mkES (bs "fNbytesFree") 4 3 (bs "int") None None None None None;
    mkES (bs "fNbytesInfo") 4 3 (bs "int") None None None None None;
    mkES (bs "fWritten") 4 3 (bs "int") None None None None None;
    mkES (bs "fNProcessIDs") 4 3 (bs "int") None None None None None;
    mkES (bs "fReadCalls") 4 3 (bs "int") None None None None None;
    mkES (bs "fRealName") 24 65 (bs "TString") None None None None None;
    mkES (bs "fOption") 24 65 (bs "TString") None None None None None;
    mkES (bs "fUnits") 1 1 (bs "char") None None None None None;
    mkES (bs "fFree") 8 64 (bs "TList*") None None None None None];
  mkCL (bs "TKey") 758463703 (4) [
    mkES (bs "TNamed") 0 67 (bs "BASE") (Some (1)) None None None None;
    mkES (bs "fVersion") 4 3 (bs "int") None None None None None;
    mkES (bs "fNbytes") 4 3 (bs "int") None None None None None;
    mkES (bs "fObjlen") 4 3 (bs "int") None None None None None;
    mkES (bs "fDatime") 16 62 (bs "TDatime") None None None None None;
    mkES (bs "fKeylen") 2 2 (bs "short") None None None None None;
    mkES (bs "fCycle") 2 2 (bs "short") None None None None None;
    mkES (bs "fSeekKey") 8 16 (bs "Long64_t") None None None None None;
    mkES (bs "fSeekPdir") 8 16 (bs "Long64_t") None None None None None;
    mkES (bs "fClassName") 24 65 (bs "TString") None None None None None;
    mkES (bs "fLeft") 4 3 (bs "int") None None None None None;
    mkES (bs "fBuffer") 8 7 (bs "char*") None None None None None;
    mkES (bs "fBufferRef") 8 64 (bs "TBuffer*") None None None None None];
  mkCL (bs "TFeldmanCousins") 3955179999 (1) [
    mkES (bs "TObject") 0 66 (bs "BASE") (Some (1)) None None None None;
    mkES (bs "fCL") 8 8 (bs "double") None None None None None;
    mkES (bs "fUpperLimit") 8 8 (bs "double") None None None None None;
    mkES (bs "fLowerLimit") 8 8 (bs "double") None None None None None;
    mkES (bs "fNobserved") 8 8 (bs "double") None None None None None;
    mkES (bs "fNbackground") 8 8 (bs "double") None None None None None;
    mkES (bs "fMuMin") 8 8 (bs "double") None None None None None;
    mkES (bs "fMuMax") 8 8 (bs "double") None None None None None;
    mkES (bs "fMuStep") 8 8 (bs "double") None None None None None;
    mkES (bs "fNMuStep") 4 3 (bs "int") None None None None None;
    mkES (bs "fNMax") 4 3 (bs "int") None None None None None;
    mkES (bs "fQUICK") 4 3 (bs "int") None None None None None];
  mkCL (bs "TLorentzVector") 3823026593 (4) [
    mkES (bs "TObject") 0 66 (bs "BASE") (Some (1)) None None None None;
    mkES (bs "fP") 40 61 (bs "TVector3") None None None None None;
    mkES (bs "fE") 8 8 (bs "double") None None None None None];
  mkCL (bs "TVector2") 9025524 (3) [
    mkES (bs "TObject") 0 66 (bs "BASE") (Some (1)) None None None None;
    mkES (bs "fX") 8 8 (bs "double") None None None None None;
    mkES (bs "fY") 8 8 (bs "double") None None None None None];
  mkCL (bs "TVector3") 2880880158 (3) [
    mkES (bs "TObject") 0 66 (bs "BASE") (Some (1)) None None None None;
    mkES (bs "fX") 8 8 (bs "double") None None None None None;
    mkES (bs "fY") 8 8 (bs "double") None None None None None;
    mkES (bs "fZ") 8 8 (bs "double") None None None None None];
  mkCL (bs "ROOT::TIOFeatures") 446770960 (-1) [
    mkES (bs "fIOBits") 1 11 (bs "unsigned char") None None None None None];
  mkCL (bs "TBasket") 3153532903 (3) [
    mkES (bs "TKey") 0 0 (bs "BASE") (Some (4)) None None None None;
    mkES (bs "fBufferSize") 4 3 (bs "int") None None None None None;
    mkES (bs "fNevBufSize") 4 3 (bs "int") None None None None None;
    mkES (bs "fNevBuf") 4 6 (bs "int") None None None None None;
    mkES (bs "fLast") 4 3 (bs "int") None None None None None;
    mkES (bs "fHeaderOnly") 1 18 (bs "bool") None None None None None;
    mkES (bs "fEntryOffset") 4 43 (bs "int*") None (Some (bs "fNevBuf")) (Some (bs "TBasket")) (Some (3)) None;
    mkES (bs "fBranch") 8 64 (bs "TBranch*") None None None None None];
  mkCL (bs "TBranch") 278366892 (13) [
    mkES (bs "TNamed") 0 67 (bs "BASE") (Some (1)) None None None None;
    mkES (bs "TAttFill") 0 0 (bs "BASE") (Some (2)) None None None None;
    mkES (bs "fCompress") 4 3 (bs "int") None None None None None;
    mkES (bs "fBasketSize") 4 3 (bs "int") None None None None None;
    mkES (bs "fEntryOffsetLen") 4 3 (bs "int") None None None None None;
    mkES (bs "fWriteBasket") 4 3 (bs "int") None None None None None;
    mkES (bs "fEntryNumber") 8 16 (bs "Long64_t") None None None None None;
    mkES (bs "fIOFeatures") 1 62 (bs "ROOT::TIOFeatures") None None None None None;
    mkES (bs "fOffset") 4 3 (bs "int") None None None None None;
    mkES (bs "fMaxBaskets") 4 6 (bs "int") None None None None None;
    mkES (bs "fSplitLevel") 4 3 (bs "int") None None None None None;
    mkES (bs "fEntries") 8 16 (bs "Long64_t") None None None None None;
    mkES (bs "fFirstEntry") 8 16 (bs "Long64_t") None None None None None;
    mkES (bs "fTotBytes") 8 16 (bs "Long64_t") None None None None None;
    mkES (bs "fZipBytes") 8 16 (bs "Long64_t") None None None None None;
    mkES (bs "fBranches") 64 61 (bs "TObjArray") None None None None None;
    mkES (bs "fLeaves") 64 61 (bs "TObjArray") None None None None None;
    mkES (bs "fBaskets") 64 61 (bs "TObjArray") None None None None None;
    mkES (bs "fBasketBytes") 4 43 (bs "int*") None (Some (bs "fMaxBaskets")) (Some (bs "TBranch")) (Some (13)) None;
    mkES (bs "fBasketEntry") 8 56 (bs "Long64_t*") None (Some (bs "fMaxBaskets")) (Some (bs "TBranch")) (Some (13)) None;
    mkES (bs "fBasketSeek") 8 56 (bs "Long64_t*") None (Some (bs "fMaxBaskets")) (Some (bs "TBranch")) (Some (13)) None;
    mkES (bs "fFileName") 24 65 (bs "TString") None None None None None];
  mkCL (bs "TBranchElement") 3880738403 (10) [
    mkES (bs "TBranch") 0 0 (bs "BASE") (Some (13)) None None None None;
    mkES (bs "fClassName") 24 65 (bs "TString") None None None None None;
    mkES (bs "fParentName") 24 65 (bs "TString") None None None None None;
    mkES (bs "fClonesName") 24 65 (bs "TString") None None None None None;
    mkES (bs "fCheckSum") 4 13 (bs "unsigned int") None None None None None;
    mkES (bs "fClassVersion") 2 2 (bs "short") None None None None None;
    mkES (bs "fID") 4 3 (bs "int") None None None None None;
    mkES (bs "fType") 4 3 (bs "int") None None None None None;
    mkES (bs "fStreamerType") 4 3 (bs "int") None None None None None;
    mkES (bs "fMaximum") 4 3 (bs "int") None None None None None;
    mkES (bs "fBranchCount") 8 64 (bs "TBranchElement*") None None None None None;
    mkES (bs "fBranchCount2") 8 64 (bs "TBranchElement*") None None None None None];
  mkCL (bs "TBranchObject") 2758938441 (1) [
    mkES (bs "TBranch") 0 0 (bs "BASE") (Some (13)) None None None None;
    mkES (bs "fClassName") 24 65 (bs "TString") None None None None None];
  mkCL (bs "TBranchRef") 593540093 (1) [
    mkES (bs "TBranch") 0 0 (bs "BASE") (Some (13)) None None None None;
    mkES (bs "fRefTable") 8 64 (bs "TRefTable*") None None None None None];
  mkCL (bs "TChain") 983483752 (5) [
    mkES (bs "TTree") 0 0 (bs "BASE") (Some (20)) None None None None;
    mkES (bs "fTreeOffsetLen") 4 6 (bs "int") None None None None None;
    mkES (bs "fNtrees") 4 3 (bs "int") None None None None None;
    mkES (bs "fTreeOffset") 8 56 (bs "Long64_t*") None (Some (bs "fTreeOffsetLen")) (Some (bs "TChain")) (Some (5)) None;
    mkES (bs "fFiles") 8 63 (bs "TObjArray*") None None None None None;
    mkES (bs "fStatus") 8 63 (bs "TList*") None None None None None];
  mkCL (bs "TLeaf") 1830715730 (2) [
    mkES (bs "TNamed") 0 67 (bs "BASE") (Some (1)) None None None None;
    mkES (bs "fLen") 4 3 (bs "int") None None None None None;
    mkES (bs "fLenType") 4 3 (bs "int") None None None None None;
    mkES (bs "fOffset") 4 3 (bs "int") None None None None None;
    mkES (bs "fIsRange") 1 18 (bs "bool") None None None None None;
    mkES (bs "fIsUnsigned") 1 18 (bs "bool") None None None None None;
    mkES (bs "fLeafCount") 8 64 (bs "TLeaf*") None None None None None];
  mkCL (bs "TLeafElement") 2689566867 (1) [
    mkES (bs "TLeaf") 0 0 (bs "BASE") (Some (2)) None None None None;
    mkES (bs "fID") 4 3 (bs "int") None None None None None;
    mkES (bs "fType") 4 3 (bs "int") None None None None None];
  mkCL (bs "TLeafObject") 649755724 (4) [
    mkES (bs "TLeaf") 0 0 (bs "BASE") (Some (2)) None None None None;
    mkES (bs "fVirtual") 1 18 (bs "bool") None None None None None];
  mkCL (bs "TLeafO") 44976339 (1) [
    mkES (bs "TLeaf") 0 0 (bs "BASE") (Some (2)) None None None None;
    mkES (bs "fMinimum") 1 18 (bs "bool") None None None None None;
    mkES (bs "fMaximum") 1 18 (bs "bool") None None None None None];
  mkCL (bs "TLeafB") 253643614 (1) [
    mkES (bs "TLeaf") 0 0 (bs "BASE") (Some (2)) None None None None;
    mkES (bs "fMinimum") 1 1 (bs "char") None None None None None;
    mkES (bs "fMaximum") 1 1 (bs "char") None None None None None];
  mkCL (bs "TLeafS") 353169103 (1) [
    mkES (bs "TLeaf") 0 0 (bs "BASE") (Some (2)) None None None None;
    mkES (bs "fMinimum") 2 2 (bs "short") None None None None None;
    mkES (bs "fMaximum") 2 2 (bs "short") None None None None None];
  mkCL (bs "TLeafI") 2120920601 (1) [
    mkES (bs "TLeaf") 0 0 (bs "BASE") (Some (2)) None None None None;
    mkES (bs "fMinimum") 4 3 (bs "int") None None None None None;
    mkES (bs "fMaximum") 4 3 (bs "int") None None None None None];
  mkCL (bs "TLeafL") 3727820898 (1) [
    mkES (bs "TLeaf") 0 0 (bs "BASE") (Some (2)) None None None None;
    mkES (bs "fMinimum") 8 16 (bs "Long64_t") None None None None None;
    mkES (bs "fMaximum") 8 16 (bs "Long64_t") None None None None None];
  mkCL (bs "TLeafG") 3970374839 (1) [
    mkES (bs "TLeaf") 0 0 (bs "BASE") (Some (2)) None None None None;
    mkES (bs "fMinimum") 8 4 (bs "long") None None None None None;
    mkES (bs "fMaximum") 8 4 (bs "long") None None None None None];
  mkCL (bs "TLeafF") 987602290 (1) [
    mkES (bs "TLeaf") 0 0 (bs "BASE") (Some (2)) None None None None;
    mkES (bs "fMinimum") 4 5 (bs "float") None None None None None;
    mkES (bs "fMaximum") 4 5 (bs "float") None None None None None];
  mkCL (bs "TLeafD") 294553462 (1) [
    mkES (bs "TLeaf") 0 0 (bs "BASE") (Some (2)) None None None None;
    mkES (bs "fMinimum") 8 8 (bs "double") None None None None None;
    mkES (bs "fMaximum") 8 8 (bs "double") None None None None None];
  mkCL (bs "TLeafF16") 3946182787 (1) [
    mkES (bs "TLeaf") 0 0 (bs "BASE") (Some (2)) None None None None;
    mkES (bs "fMinimum") 4 19 (bs "Float16_t") None None None None None;
    mkES (bs "fMaximum") 4 19 (bs "Float16_t") None None None None None];
  mkCL (bs "TLeafD32") 3789317121 (1) [
    mkES (bs "TLeaf") 0 0 (bs "BASE") (Some (2)) None None None None;
    mkES (bs "fMinimum") 8 9 (bs "Double32_t") None None None None None;
    mkES (bs "fMaximum") 8 9 (bs "Double32_t") None None None None None];
  mkCL (bs "TLeafC") 4226003699 (1) [
    mkES (bs "TLeaf") 0 0 (bs "BASE") (Some (2)) None None None None;
    mkES (bs "fMinimum") 4 3 (bs "int") None None None None None;
    mkES (bs "fMaximum") 4 3 (bs "int") None None None None None];
  mkCL (bs "TNtuple") 3097828523 (2) [
    mkES (bs "TTree") 0 0 (bs "BASE") (Some (20)) None None None None;
    mkES (bs "fNvar") 4 3 (bs "int") None None None None None];
  mkCL (bs "TNtupleD") 2380847219 (1) [
    mkES (bs "TTree") 0 0 (bs "BASE") (Some (20)) None None None None;
    mkES (bs "fNvar") 4 3 (bs "int") None None None None None];
  mkCL (bs "TTree") 1919213695 (20) [
    mkES (bs "TNamed") 0 67 (bs "BASE") (Some (1)) None None None None;
    mkES (bs "TAttLine") 0 0 (bs "BASE") (Some (2)) None None None None;
    mkES (bs "TAttFill") 0 0 (bs "BASE") (Some (2)) None None None None;
    mkES (bs "TAttMarker") 0 0 (bs "BASE") (Some (2)) None None None None;
    mkES (bs "fEntries") 8 16 (bs "Long64_t") None None None None None;
    mkES (bs "fTotBytes") 8 16 (bs "Long64_t") None None None None None;
    mkES (bs "fZipBytes") 8 16 (bs "Long64_t") None None None None None;
    mkES (bs "fSavedBytes") 8 16 (bs "Long64_t") None None None None None;
    mkES (bs "fFlushedBytes") 8 16 (bs "Long64_t") None None None None None;
    mkES (bs "fWeight") 8 8 (bs "double") None None None None None;
    mkES (bs "fTimerInterval") 4 3 (bs "int") None None None None None;
    mkES (bs "fScanField") 4 3 (bs "int") None None None None None;
    mkES (bs "fUpdate") 4 3 (bs "int") None None None None None;
    mkES (bs "fDefaultEntryOffsetLen") 4 3 (bs "int") None None None None None;
    mkES (bs "fNClusterRange") 4 6 (bs "int") None None None None None;
    mkES (bs "fMaxEntries") 8 16 (bs "Long64_t") None None None None None;
    mkES (bs "fMaxEntryLoop") 8 16 (bs "Long64_t") None None None None None;
    mkES (bs "fMaxVirtualSize") 8 16 (bs "Long64_t") None None None None None;
    mkES (bs "fAutoSave") 8 16 (bs "Long64_t") None None None None None;
    mkES (bs "fAutoFlush") 8 16 (bs "Long64_t") None None None None None;
    mkES (bs "fEstimate") 8 16 (bs "Long64_t") None None None None None;
    mkES (bs "fClusterRangeEnd") 8 56 (bs "Long64_t*") None (Some (bs "fNClusterRange")) (Some (bs "TTree")) (Some (20)) None;
    mkES (bs "fClusterSize") 8 56 (bs "Long64_t*") None (Some (bs "fNClusterRange")) (Some (bs "TTree")) (Some (20)) None;
    mkES (bs "fIOFeatures") 1 62 (bs "ROOT::TIOFeatures") None None None None None;
    mkES (bs "fBranches") 64 61 (bs "TObjArray") None None None None None;
    mkES (bs "fLeaves") 64 61 (bs "TObjArray") None None None None None;
    mkES (bs "fAliases") 8 64 (bs "TList*") None None None None None;
    mkES (bs "fIndexValues") 24 62 (bs "TArrayD") None None None None None;
    mkES (bs "fIndex") 24 62 (bs "TArrayI") None None None None None;
    mkES (bs "fTreeIndex") 8 64 (bs "TVirtualIndex*") None None None None None;
    mkES (bs "fFriends") 8 64 (bs "TList*") None None None None None;
    mkES (bs "fUserInfo") 8 64 (bs "TList*") None None None None None;
    mkES (bs "fBranchRef") 8 64 (bs "TBranchRef*") None None None None None];
  mkCL (bs "TAttCanvas") 4134953791 (1) [
    mkES (bs "fXBetween") 4 5 (bs "float") None None None None None;
    mkES (bs "fYBetween") 4 5 (bs "float") None None None None None;
    mkES (bs "fTitleFromTop") 4 5 (bs "float") None None None None None;
    mkES (bs "fXdate") 4 5 (bs "float") None None None None None;
    mkES (bs "fYdate") 4 5 (bs "float") None None None None None;
    mkES (bs "fAdate") 4 5 (bs "float") None None None None None];
  mkCL (bs "TCanvas") 232602757 (8) [
    mkES (bs "TPad") 0 0 (bs "BASE") (Some (13)) None None None None;
    mkES (bs "fCatt") 32 62 (bs "TAttCanvas") None None None None None;
    mkES (bs "fDISPLAY") 24 65 (bs "TString") None None None None None;
    mkES (bs "fXsizeUser") 4 5 (bs "float") None None None None None;
    mkES (bs "fYsizeUser") 4 5 (bs "float") None None None None None;
    mkES (bs "fXsizeReal") 4 5 (bs "float") None None None None None;
    mkES (bs "fYsizeReal") 4 5 (bs "float") None None None None None;
    mkES (bs "fHighLightColor") 2 2 (bs "short") None None None None None;
    mkES (bs "fDoubleBuffer") 4 3 (bs "int") None None None None None;
    mkES (bs "fWindowTopX") 4 3 (bs "int") None None None None None;
    mkES (bs "fWindowTopY") 4 3 (bs "int") None None None None None;
    mkES (bs "fWindowWidth") 4 13 (bs "unsigned int") None None None None None;
    mkES (bs "fWindowHeight") 4 13 (bs "unsigned int") None None None None None;
    mkES (bs "fCw") 4 13 (bs "unsigned int") None None None None None;
    mkES (bs "fCh") 4 13 (bs "unsigned int") None None None None None;
    mkES (bs "fRetained") 1 18 (bs "bool") None None None None None]].

(** rdict/streamers/db.rs, generated table: all classes built *)
Definition built_table : res (list sinfo) := res_all build_class raw_table.
(** The same, evaluated once. *)
Definition table : list sinfo := Eval vm_compute in match built_table with Ok l => l | _ => [] end.
Lemma table_built : built_table = Ok table.
Proof. vm_compute. reflexivity. Qed.

(** db.rs 23-46 [insert], [get].  Names are unique in the table and contain no dash, so
    a key is found by name and version, and with a version that is not positive by
    name alone. *)
Definition real_db (n : bytes) (v : Z) : option sinfo :=
  find (fun s => beqb (si_name s) n && ((v <=? 0) || (si_clsver s =? v))) table.

(** The keys "name-version" of the table are all different, whichever is asked for. *)
Lemma table_names : NoDup (map si_name table) /\ Forall (fun s => existsb (Z.eqb 45) (si_name s) = false) table.
Proof.
  split.
  - assert (H : forall l : list bytes, (fix nd (l : list bytes) := match l with [] => true | x :: r => negb (existsb (beqb x) r) && nd r end) l = true -> NoDup l).
    { induction l as [|x l IH]; intros H; constructor.
      - apply andb_prop in H as [H _]. intros Hin. apply negb_true_iff in H.
        assert (existsb (beqb x) l = true) by (apply existsb_exists; exists x; split; [exact Hin|apply beqb_refl]). congruence.
      - apply andb_prop in H as [_ H]. auto. }
    apply H. vm_compute. reflexivity.
  - apply Forall_forall. intros s Hs. revert s Hs. apply Forall_forall.
    assert (H : forallb (fun s => negb (existsb (Z.eqb 45) (si_name s))) table = true) by (vm_compute; reflexivity).
    rewrite forallb_forall in H. apply Forall_forall. intros s Hs. apply H in Hs. now apply negb_true_iff.
Qed.

(** ** The table can be marshalled *)
Definition i32b (z : Z) : bool := (-2147483648 <=? z) && (z <? 2147483648).
Definition u32b (z : Z) : bool := (0 <=? z) && (z <? 4294967296).
Definition strb (s : bytes) : bool := (Z.of_nat (length s) <? 1000) && is_ascii s.
Definition namedb (n : named) : bool :=
  u32b (o_id (n_obj n)) && u32b (o_bits (n_obj n)) && strb (n_name n) && strb (n_title n).
Definition elemb (e : element) : bool :=
  namedb (e_named e) && get_range_returns (n_title (e_named e)) && i32b (e_etype e) && i32b (e_esize e) &&
  i32b (e_arrlen e) && i32b (e_arrdim e) && Nat.eqb (length (e_maxidx e)) 5 && forallb i32b (e_maxidx e) && strb (e_ename e).
Definition streamerb (s : streamer) : bool :=
  elemb (s_elem s) &&
  match s with
  | SBase _ v => i32b v
  | SBasicType e =>
      let e' := elem_seen e in
      let t := if (20 <? e_etype e') && (e_etype e' <? 40) then e_etype e' - 20 else e_etype e' in
      enum_named t && (8 * e_arrlen e' <? 2147483648)
  | SBasicPointer _ v n c => i32b v && strb n && strb c
  | SStl _ v c => i32b c && stl_named v
  | SStlString _ _ _ => false
  | _ => true
  end.
Definition sinfob (s : sinfo) : bool :=
  namedb (si_named s) && u32b (si_chksum s) && i32b (si_clsver s) && forallb streamerb (si_elems s) &&
  (Z.of_nat (length (si_elems s)) <? 1000).

Ltac split_andb := repeat match goal with H : _ && _ = true |- _ => apply andb_prop in H as [? ?] end.
Lemma i32b_ok z : i32b z = true -> is_i32 z. Proof. unfold i32b, is_i32. lia. Qed.
Lemma u32b_ok z : u32b z = true -> is_u32 z. Proof. unfold u32b, is_u32. lia. Qed.
Lemma strb_ok s : strb s = true -> str_ok s.
Proof. unfold strb. intros H. split_andb. split; [rewrite zlen_def; lia|now apply ascii_utf8]. Qed.
Lemma namedb_ok n : namedb n = true -> named_ok n.
Proof.
  unfold namedb. intros H. split_andb. split; [split; now apply u32b_ok|]. split; now apply strb_ok.
Qed.
Lemma elemb_ok e : elemb e = true -> elem_ok e.
Proof.
  unfold elemb. intros H. split_andb. unfold elem_ok.
  split; [now apply namedb_ok|]. split; [assumption|]. do 4 (split; [now apply i32b_ok|]).
  split; [now apply Nat.eqb_eq|]. split; [|now apply strb_ok]. apply Forall_forall. intros x Hx.
  match goal with H : forallb i32b _ = true |- _ => rewrite forallb_forall in H; apply i32b_ok; auto end.
Qed.
Lemma streamerb_ok s : streamerb s = true -> streamer_ok s.
Proof.
  unfold streamerb. intros H. apply andb_prop in H as [H1 H2]. split; [now apply elemb_ok|].
  destruct s; try exact I; split_andb; try discriminate; try (now apply i32b_ok).
  - split; [assumption|]. now apply Z.ltb_lt.
  - split; [now apply i32b_ok|]. split; now apply strb_ok.
  - split; [now apply i32b_ok|assumption].
Qed.
Lemma sinfob_ok s : sinfob s = true -> sinfo_ok s.
Proof.
  unfold sinfob. intros H. split_andb. split; [now apply namedb_ok|]. split; [now apply u32b_ok|]. split; [now apply i32b_ok|].
  split; [|rewrite zlen_def; lia]. apply Forall_forall. intros x Hx.
  match goal with H : forallb streamerb _ = true |- _ => rewrite forallb_forall in H; apply streamerb_ok; auto end.
Qed.

Lemma table_ok : Forall sinfo_ok table.
Proof.
  assert (H : forallb sinfob table = true) by (vm_compute; reflexivity).
  rewrite forallb_forall in H. apply Forall_forall. intros s Hs. apply sinfob_ok. auto.
Qed.

Lemma real_db_in n v s : real_db n v = Some s -> In s table.
Proof. intros H. now apply find_some in H as [H _]. Qed.

(** The table of the library satisfies what [session_back] asks of a table. *)
Lemma real_db_ok : db_ok real_db.
Proof.
  constructor.
  - intros n v s H. apply real_db_in in H. pose proof table_ok as T. rewrite Forall_forall in T. auto.
  - exists (map si_name table). split; [rewrite zlen_def; vm_compute; reflexivity|].
    intros n v s H. apply real_db_in in H. now apply in_map.
  - intros n v s H. apply real_db_in in H. 
    assert (X : forallb (fun s => negb (existsb (beqb (si_name s)) vec_names)) table = true) by (vm_compute; reflexivity).
    rewrite forallb_forall in X. specialize (X s H). intros Hin.
    assert (existsb (beqb (si_name s)) vec_names = true).
    { apply existsb_exists. exists (si_name s). split; [exact Hin|apply beqb_refl]. }
    rewrite H0 in X. discriminate.
Qed.
