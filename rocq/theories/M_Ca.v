(* components/heimdall/pkg/cert (renewer.go, certificate.go, the after-check function of webhook_certifier.go),
   pkg/ca/istio/istio_ca.go and pkg/ca/selfsigned/selfsigned.go *)
From Coq Require Import String List Ascii Bool Arith ZArith.
From Verif Require Import M_GoStr.
Import ListNotations.
Open Scope list_scope.
(* ================= webhook certificate renewal ================= *)
(* what the crypto libraries say about PEM blobs (numbered): key pair check, pool append, certificate parsing; the names a
   certificate covers, whether a CA signed it, its validity; and time arithmetic of AddDate *)
Record clib := mkclib { keypair_ok : nat -> nat -> bool; pool_ok : nat -> bool; parse_ok : nat -> bool; covers : nat -> gstr -> bool; signed_by : nat -> nat -> bool;
  not_before : nat -> Z; not_after : nat -> Z; plus_half : Z -> Z; plus_year : Z -> Z }.
(* certificate.go:50-62 *)
Record certificate := mkcert { c_ca : nat; c_cakey : nat; c_srv : nat; c_srvkey : nat }.
(* the four files of the directory, None: missing or unreadable *)
Record files := mkfiles { f_ca : option nat; f_cakey : option nat; f_srv : option nat; f_srvkey : option nat }.
(* certificate.go:172-210 NewCertificateFromDirectory *)
Definition from_directory (f : files) : option certificate :=
  match f_ca f, f_cakey f, f_srv f, f_srvkey f with Some a, Some b, Some c, Some d => Some (mkcert a b c d) | _, _, _, _ => None end.
(* certificate.go:225-260 Verify; x509's Verify with a DNS name (none if empty), the pool as roots and a time *)
Definition cert_verify (L : clib) (c : certificate) (dns : gstr) (t : Z) : bool :=
  keypair_ok L (c_srv c) (c_srvkey c) && pool_ok L (c_ca c) && parse_ok L (c_srv c) &&
  ((match dns with [] => true | _ => covers L (c_srv c) dns end) && signed_by L (c_srv c) (c_ca c) && (not_before L (c_srv c) <=? t)%Z && (t <=? not_after L (c_srv c))%Z).
(* renewer.go:170-203 verifyCertificate at time now *)
Definition names_checked (dns : list gstr) : list gstr := match dns with [] => [[]] | l => l end.
Definition verify_certificate (L : clib) (dns : list gstr) (f : files) (now : Z) : bool * option certificate :=
  match from_directory f with None => (false, None) | Some c => (forallb (fun d => cert_verify L c d (plus_half L now)) (names_checked dns), Some c) end.
Inductive fname := FCa | FCaKey | FSrv | FSrvKey.
Definition set_file (c : certificate) (f : files) (n : fname) : files :=
  match n with
  | FCa => mkfiles (Some (c_ca c)) (f_cakey f) (f_srv f) (f_srvkey f)
  | FCaKey => mkfiles (f_ca f) (Some (c_cakey c)) (f_srv f) (f_srvkey f)
  | FSrv => mkfiles (f_ca f) (f_cakey f) (Some (c_srv c)) (f_srvkey f)
  | FSrvKey => mkfiles (f_ca f) (f_cakey f) (f_srv f) (Some (c_srvkey c))
  end.
(* certificate.go:265-292 Write: the files in some order (a Go map); a failure or crash leaves a prefix of them written *)
Definition write_files (c : certificate) (written : list fname) (f : files) : files := fold_left (set_file c) written f.
(* renewer.go:141-168 renewCertificate: generating fails, writing fails after some files, or it works *)
Inductive renewal := RGenFails | RWriteFails (c : certificate) (written : list fname) | RWorks (c : certificate) (order : list fname).
Definition renew (r : renewal) (f : files) : files * option certificate :=
  match r with RGenFails => (f, None) | RWriteFails c w => (write_files c w f, None) | RWorks c o => (write_files c o f, Some c) end.
(* renewer.go:102-137 checkCertificate: the files afterwards, the certificate handed to the after-check functions, whether it
   was renewed; the returned error is always nil *)
Definition check_certificate (L : clib) (dns : list gstr) (r : renewal) (f : files) (now : Z) : files * option certificate * bool :=
  let '(valid, c) := verify_certificate L dns f now in
  if valid then (f, c, false) else let '(f', c') := renew r f in (f', c', true).
(* webhook_certifier.go:95-123: the after-check function reads c.CACertificate for every webhook; nil panics *)
Inductive after_result := ASet (ca : nat) | ANothing | APanic.
Definition after_check (webhooks : nat) (c : option certificate) : after_result := match webhooks with O => ANothing | _ => match c with Some c => ASet (c_ca c) | None => APanic end end.
(* ================= Istio CA client (istio_ca.go) ================= *)
(* a certificate is its number and NotAfter; the cache by host name. istio_ca.go:71-140 GetCertificate at time now; issue is
   the answer to a signing request: None is any error on the way *)
Record wcert := mkw { w_id : nat; w_not_after : Z }.
Definition cache := gstr -> option wcert.
Definition get_certificate (issue : option wcert) (host : gstr) (now : Z) (c : cache) : option wcert * bool * cache :=
  let request := match issue with None => (None, true, c) | Some w => (Some w, true, fun h => if gstr_eq_dec h host then Some w else c h) end in
  match c host with
  | Some w => if (now <? w_not_after w)%Z then (Some w, false, c) else request
  | None => request
  end.
(* istio_ca.go:90-95: the endpoint SAN; split is net.SplitHostPort (None: error, in which case host is empty) *)
Definition endpoint_san (split : gstr -> option gstr) (configured endpoint : gstr) : gstr :=
  match configured with
  | [] => match split endpoint with None => [] | Some _ => configured end
  | s => s
  end.
(* ================= self-signed CA (selfsigned.go) ================= *)
(* selfsigned.go:237-241 getNextSerial: an atomic add and a separate atomic load. Calls are numbered; a schedule is the
   order of their two steps; result: the serial of each call that has loaded *)
Inductive sev := SAdd (call : nat) | SLoad (call : nat).
Fixpoint serials (sched : list sev) (counter : Z) : list (nat * Z) :=
  match sched with [] => [] | SAdd _ :: r => serials r (counter + 1) | SLoad k :: r => (k, counter) :: serials r counter end.
(* selfsigned.go:103-140 GetCertificateWithSigner: how the SANs end up in the template; san_type is
   verify.GetSANTypeFromSAN (util.go:76-90), url_ok whether url.Parse accepts it *)
Inductive ssan := SsUri | SsEmail | SsIp | SsDns.
Record template := mktpl { t_uris : list gstr; t_emails : list gstr; t_ips : list gstr; t_dns : list gstr }.
Definition ss_type (ip_ok : gstr -> bool) (s : gstr) : ssan := if gcontains s (lit "://") then SsUri else if gcontains s (lit "@") then SsEmail else if ip_ok s then SsIp else SsDns.
Fixpoint fill_sans (ip_ok url_ok : gstr -> bool) (sans : list gstr) (t : template) : option template :=
  match sans with
  | [] => Some t
  | s :: r =>
      match ss_type ip_ok s with
      | SsUri => if url_ok s then fill_sans ip_ok url_ok r (mktpl [s] (t_emails t) (t_ips t) (t_dns t)) else None
      | SsEmail => fill_sans ip_ok url_ok r (mktpl (t_uris t) (t_emails t ++ [s]) (t_ips t) (t_dns t))
      | SsIp => fill_sans ip_ok url_ok r (mktpl (t_uris t) (t_emails t) (t_ips t ++ [s]) (t_dns t))
      | SsDns => fill_sans ip_ok url_ok r (mktpl (t_uris t) (t_emails t) (t_ips t) (t_dns t ++ [s]))
      end
  end.
Definition template0 : template := mktpl [] [] [] [].
