(* Specification vocabulary for whole requests and responses *)
From Coq Require Import List ZArith Bool.
From Verif Require Import M_KBase S_KBase M_KFields M_KRecords S_KRecords M_KSchema S_KSchema M_KSchemas M_KMsg.
Import ListNotations.
Open Scope Z_scope.

(* a message definition of the library: one of the 328 generated structs *)
Definition known (s : sch) : Prop :=
  In s all_structs \/ (exists k, req_sch k = Some s) \/ (exists k, resp_sch k = Some s).
(* the definition is flexible (KIP-482) at a version *)
Definition flexible_s (s : sch) (ver : Z) : Prop := match s with Sch flo fhi _ => flo <= ver <= fhi end.

(* admissible: every value in range, no duplicate unknown tag in one struct *)
Definition admissible (s : sch) (v : den_s s) : Prop := ok_s s v /\ distinct_tags s v.
Definition msg_ok {hs} (m : message hs) : Prop := admissible hs (m_hdr m) /\ admissible (m_sch m) (m_data m).
Definition msg_gapless {hs} (m : message hs) : Prop := gapless hs (m_hdr m) /\ gapless (m_sch m) (m_data m).
(* what comes back after a round trip at header version hv and api version ver *)
Definition msg_back {hs} (hv ver : Z) (m : message hs) : message hs :=
  mkmsg (back_s hv hs (m_hdr m)) (m_key m) (m_sch m) (back_s ver (m_sch m) (m_data m)).
