(* Model: whole requests and responses, components/kafka-protocol-go/pkg/request/request.go and
   pkg/response/response.go.  Not modelled: object pools (Release), String. *)
From Coq Require Import List ZArith Bool.
From Verif Require Import M_KBase M_KFields M_KRecords M_KSchema M_KSchemas.
Import ListNotations.
Open Scope Z_scope.

(* request.go:34-37, response.go:36-39: the header and the data, an object of some message type with its
   ApiKey() (a method of the generated type, see req_sch / resp_sch) *)
Record message (hs : sch) := mkmsg { m_hdr : den_s hs; m_key : Z; m_sch : sch; m_data : den_s m_sch }.
Arguments mkmsg {hs}. Arguments m_hdr {hs}. Arguments m_key {hs}. Arguments m_sch {hs}. Arguments m_data {hs}.
Notation request := (message s_request_Header).
Notation response := (message s_response_Header).
(* accessors of the generated header structs (messages/request/header.go, messages/response/header.go) *)
Definition h_key (h : den_s s_request_Header) : Z := fst (sv_fld h).
Definition h_ver (h : den_s s_request_Header) : Z := fst (snd (sv_fld h)).
Definition h_corr (h : den_s s_request_Header) : Z := fst (snd (snd (sv_fld h))).
Definition h_client (h : den_s s_request_Header) : nstr := fst (snd (snd (snd (sv_fld h)))).
Definition rh_corr (h : den_s s_response_Header) : Z := fst (sv_fld h).
(* HeaderLowestSupportedVersion / HeaderHighestSupportedVersion of messages/request/header.go (0, 2) and
   messages/response/header.go (0, 1) *)
Definition req_hdr_ok (h : Z) : bool := in_vers 0 2 h.
Definition resp_hdr_ok (h : Z) : bool := in_vers 0 1 h.

Section WithCodec.
Variable cz : codec.
(* header then data, size first; None = error.  The writer has exactly the computed capacity. *)
Definition put_message {hs} (hver ver : Z) (m : message hs) (n : Z) : option (list Z) :=
  obind (wr_s cz hver hs (m_hdr m)) (fun a => obind (wr_s cz ver (m_sch m) (m_data m)) (fun b =>
  if zlen (a ++ b) <=? n then Some (a ++ b) else None)).
(* request.go:92-114 SizeInBytes.  The header version is looked up with the api key in the header. *)
Definition req_size (ver : Z) (m : request) : option Z :=
  let hv := req_header_version (h_key (m_hdr m)) ver in
  if hv =? -1 then None else if negb (req_hdr_ok hv) then None
  else obind (sz_s hv s_request_Header (m_hdr m)) (fun a => obind (sz_s ver (m_sch m) (m_data m)) (fun b => Some (a + b))).
(* request.go:60-89 Serialize *)
Definition req_serialize (ver : Z) (m : request) : option (list Z) :=
  let hv := req_header_version (h_key (m_hdr m)) ver in
  if hv =? -1 then None else if negb (req_hdr_ok hv) then None
  else obind (req_size ver m) (fun n => put_message hv ver m n).
(* request.go:129-188 Parse; what the reader has left at the end is ignored *)
Definition req_parse (msg : list Z) : rres request :=
  if (length msg <? 4)%nat then RErr false
  else rbind (rd_int 2 msg) (fun key r => rbind (rd_int 2 r) (fun ver _ =>
    let hv := req_header_version key ver in
    if hv =? -1 then RErr false else if negb (req_hdr_ok hv) then RErr false
    else rbind (rd_s cz hv s_request_Header msg) (fun h r1 =>
      match req_sch key with
      | None => RErr false
      | Some s => rbind (rd_s cz ver s r1) (fun d r2 => ROk (mkmsg h key s d) r2)
      end))).

(* response.go:91-113 SizeInBytes (checks the REQUEST header's range, 107) *)
Definition resp_size (ver : Z) (m : response) : option Z :=
  let hv := resp_header_version (m_key m) ver in
  if hv =? -1 then None else if negb (req_hdr_ok hv) then None
  else obind (sz_s hv s_response_Header (m_hdr m)) (fun a => obind (sz_s ver (m_sch m) (m_data m)) (fun b => Some (a + b))).
(* response.go:59-88 Serialize *)
Definition resp_serialize (ver : Z) (m : response) : option (list Z) :=
  let hv := resp_header_version (m_key m) ver in
  if hv =? -1 then None else if negb (resp_hdr_ok hv) then None
  else obind (resp_size ver m) (fun n => put_message hv ver m n).
(* response.go:128-182 Parse.  Line 161 tests requestApiVersion == 18 where the comment says api key 18. *)
Definition resp_parse (msg : list Z) (key ver corr : Z) : rres response :=
  let hv := resp_header_version key ver in
  if hv =? -1 then RErr false
  else rbind (rd_s cz hv s_response_Header msg) (fun h r1 =>
    if negb (rh_corr h =? corr) then RErr false
    else match resp_sch key with
    | None => RErr false
    | Some s =>
      match rd_s cz ver s r1 with
      | ROk d r2 => ROk (mkmsg h key s d) r2
      | RPanic => RPanic
      | RErr e => if (ver =? 18) && negb (ver =? 0)
                  then rbind (rd_s cz 0 s r1) (fun d r2 => ROk (mkmsg h key s d) r2)
                  else RErr e
      end
    end).
End WithCodec.
