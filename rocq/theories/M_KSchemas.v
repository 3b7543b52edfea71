(* GENERATED by tools/extract_schemas.py from the generated Go structs under
   components/kafka-protocol-go/pkg/protocol/messages and the tables pkg/request/header.go,
   pkg/response/header.go.  Do not edit. *)
From Coq Require Import List ZArith Bool.
From Verif Require Import M_KBase M_KFields M_KRecords M_KSchema.
Import ListNotations.
Open Scope Z_scope.

(* messages/addoffsetstotxn/request.go *)
Definition s_addoffsetstotxn_Request : sch := Sch 3 32767 (
  (* transactionalId *) FCons (mkctx 0 32767 3 32767 0 0 0 0 None false) DNone (TPrim PStr) (
  (* producerId *) FCons (mkctx 0 32767 3 32767 0 0 0 0 None false) DNone (TPrim (PInt 8)) (
  (* producerEpoch *) FCons (mkctx 0 32767 3 32767 0 0 0 0 None false) DNone (TPrim (PInt 2)) (
  (* groupId *) FCons (mkctx 0 32767 3 32767 0 0 0 0 None false) DNone (TPrim PStr) (
  FNil))))).
(* messages/addoffsetstotxn/response.go *)
Definition s_addoffsetstotxn_Response : sch := Sch 3 32767 (
  (* throttleTimeMs *) FCons (mkctx 0 32767 3 32767 0 0 0 0 None false) DNone (TPrim (PInt 4)) (
  (* errorCode *) FCons (mkctx 0 32767 3 32767 0 0 0 0 None false) DNone (TPrim (PInt 2)) (
  FNil))).
(* messages/addpartitionstotxn/request/addpartitionstotxntopic.go *)
Definition s_addpartitionstotxn_request_AddPartitionsToTxnTopic : sch := Sch 3 32767 (
  (* name *) FCons (mkctx 0 32767 3 32767 0 0 0 0 None false) DNone (TPrim PStr) (
  (* partitions *) FCons (mkctx 0 32767 3 32767 0 0 0 0 None false) DNone (TArr (PInt 4)) (
  FNil))).
(* messages/addpartitionstotxn/request.go *)
Definition s_addpartitionstotxn_Request : sch := Sch 3 32767 (
  (* transactionalId *) FCons (mkctx 0 32767 3 32767 0 0 0 0 None false) DNone (TPrim PStr) (
  (* producerId *) FCons (mkctx 0 32767 3 32767 0 0 0 0 None false) DNone (TPrim (PInt 8)) (
  (* producerEpoch *) FCons (mkctx 0 32767 3 32767 0 0 0 0 None false) DNone (TPrim (PInt 2)) (
  (* topics *) FCons (mkctx 0 32767 3 32767 0 0 0 0 None false) DNone (TArrS s_addpartitionstotxn_request_AddPartitionsToTxnTopic) (
  FNil))))).
(* messages/addpartitionstotxn/response/addpartitionstotxntopicresult/addpartitionstotxnpartitionresult.go *)
Definition s_addpartitionstotxn_response_addpartitionstotxntopicresult_AddPartitionsToTxnPartitionResult : sch := Sch 3 32767 (
  (* partitionIndex *) FCons (mkctx 0 32767 3 32767 0 0 0 0 None false) DNone (TPrim (PInt 4)) (
  (* errorCode *) FCons (mkctx 0 32767 3 32767 0 0 0 0 None false) DNone (TPrim (PInt 2)) (
  FNil))).
(* messages/addpartitionstotxn/response/addpartitionstotxntopicresult.go *)
Definition s_addpartitionstotxn_response_AddPartitionsToTxnTopicResult : sch := Sch 3 32767 (
  (* name *) FCons (mkctx 0 32767 3 32767 0 0 0 0 None false) DNone (TPrim PStr) (
  (* results *) FCons (mkctx 0 32767 3 32767 0 0 0 0 None false) DNone (TArrS s_addpartitionstotxn_response_addpartitionstotxntopicresult_AddPartitionsToTxnPartitionResult) (
  FNil))).
(* messages/addpartitionstotxn/response.go *)
Definition s_addpartitionstotxn_Response : sch := Sch 3 32767 (
  (* throttleTimeMs *) FCons (mkctx 0 32767 3 32767 0 0 0 0 None false) DNone (TPrim (PInt 4)) (
  (* results *) FCons (mkctx 0 32767 3 32767 0 0 0 0 None false) DNone (TArrS s_addpartitionstotxn_response_AddPartitionsToTxnTopicResult) (
  FNil))).
(* messages/allocateproducerids/request.go *)
Definition s_allocateproducerids_Request : sch := Sch 0 32767 (
  (* brokerId *) FCons (mkctx 0 32767 0 32767 0 0 0 0 None false) DNone (TPrim (PInt 4)) (
  (* brokerEpoch *) FCons (mkctx 0 32767 0 32767 0 0 0 0 None false) (DInt (-1)) (TPrim (PInt 8)) (
  FNil))).
(* messages/allocateproducerids/response.go *)
Definition s_allocateproducerids_Response : sch := Sch 0 32767 (
  (* throttleTimeMs *) FCons (mkctx 0 32767 0 32767 0 0 0 0 None false) DNone (TPrim (PInt 4)) (
  (* errorCode *) FCons (mkctx 0 32767 0 32767 0 0 0 0 None false) DNone (TPrim (PInt 2)) (
  (* producerIdStart *) FCons (mkctx 0 32767 0 32767 0 0 0 0 None false) DNone (TPrim (PInt 8)) (
  (* producerIdLen *) FCons (mkctx 0 32767 0 32767 0 0 0 0 None false) DNone (TPrim (PInt 4)) (
  FNil))))).
(* messages/alterclientquotas/request/entrydata/entitydata.go *)
Definition s_alterclientquotas_request_entrydata_EntityData : sch := Sch 1 32767 (
  (* entityType *) FCons (mkctx 0 32767 1 32767 0 0 0 0 None false) DNone (TPrim PStr) (
  (* entityName *) FCons (mkctx 0 32767 1 32767 0 32767 0 0 None false) DNone (TPrim PStr) (
  FNil))).
(* messages/alterclientquotas/request/entrydata/opdata.go *)
Definition s_alterclientquotas_request_entrydata_OpData : sch := Sch 1 32767 (
  (* key *) FCons (mkctx 0 32767 1 32767 0 0 0 0 None false) DNone (TPrim PStr) (
  (* value *) FCons (mkctx 0 32767 1 32767 0 0 0 0 None false) DNone (TPrim PFloat) (
  (* remove *) FCons (mkctx 0 32767 1 32767 0 0 0 0 None false) DNone (TPrim PBool) (
  FNil)))).
(* messages/alterclientquotas/request/entrydata.go *)
Definition s_alterclientquotas_request_EntryData : sch := Sch 1 32767 (
  (* entity *) FCons (mkctx 0 32767 1 32767 0 0 0 0 None false) DNone (TArrS s_alterclientquotas_request_entrydata_EntityData) (
  (* ops *) FCons (mkctx 0 32767 1 32767 0 0 0 0 None false) DNone (TArrS s_alterclientquotas_request_entrydata_OpData) (
  FNil))).
(* messages/alterclientquotas/request.go *)
Definition s_alterclientquotas_Request : sch := Sch 1 32767 (
  (* entries *) FCons (mkctx 0 32767 1 32767 0 0 0 0 None false) DNone (TArrS s_alterclientquotas_request_EntryData) (
  (* validateOnly *) FCons (mkctx 0 32767 1 32767 0 0 0 0 None false) DNone (TPrim PBool) (
  FNil))).
(* messages/alterclientquotas/response/entrydata/entitydata.go *)
Definition s_alterclientquotas_response_entrydata_EntityData : sch := Sch 1 32767 (
  (* entityType *) FCons (mkctx 0 32767 1 32767 0 0 0 0 None false) DNone (TPrim PStr) (
  (* entityName *) FCons (mkctx 0 32767 1 32767 0 32767 0 0 None false) DNone (TPrim PStr) (
  FNil))).
(* messages/alterclientquotas/response/entrydata.go *)
Definition s_alterclientquotas_response_EntryData : sch := Sch 1 32767 (
  (* errorCode *) FCons (mkctx 0 32767 1 32767 0 0 0 0 None false) DNone (TPrim (PInt 2)) (
  (* errorMessage *) FCons (mkctx 0 32767 1 32767 0 32767 0 0 None false) DNone (TPrim PStr) (
  (* entity *) FCons (mkctx 0 32767 1 32767 0 0 0 0 None false) DNone (TArrS s_alterclientquotas_response_entrydata_EntityData) (
  FNil)))).
(* messages/alterclientquotas/response.go *)
Definition s_alterclientquotas_Response : sch := Sch 1 32767 (
  (* throttleTimeMs *) FCons (mkctx 0 32767 1 32767 0 0 0 0 None false) DNone (TPrim (PInt 4)) (
  (* entries *) FCons (mkctx 0 32767 1 32767 0 0 0 0 None false) DNone (TArrS s_alterclientquotas_response_EntryData) (
  FNil))).
(* messages/alterconfigs/request/alterconfigsresource/alterableconfig.go *)
Definition s_alterconfigs_request_alterconfigsresource_AlterableConfig : sch := Sch 2 32767 (
  (* name *) FCons (mkctx 0 32767 2 32767 0 0 0 0 None false) DNone (TPrim PStr) (
  (* value *) FCons (mkctx 0 32767 2 32767 0 32767 0 0 None false) DNone (TPrim PStr) (
  FNil))).
(* messages/alterconfigs/request/alterconfigsresource.go *)
Definition s_alterconfigs_request_AlterConfigsResource : sch := Sch 2 32767 (
  (* resourceType *) FCons (mkctx 0 32767 2 32767 0 0 0 0 None false) DNone (TPrim (PInt 1)) (
  (* resourceName *) FCons (mkctx 0 32767 2 32767 0 0 0 0 None false) DNone (TPrim PStr) (
  (* configs *) FCons (mkctx 0 32767 2 32767 0 0 0 0 None false) DNone (TArrS s_alterconfigs_request_alterconfigsresource_AlterableConfig) (
  FNil)))).
(* messages/alterconfigs/request.go *)
Definition s_alterconfigs_Request : sch := Sch 2 32767 (
  (* resources *) FCons (mkctx 0 32767 2 32767 0 0 0 0 None false) DNone (TArrS s_alterconfigs_request_AlterConfigsResource) (
  (* validateOnly *) FCons (mkctx 0 32767 2 32767 0 0 0 0 None false) DNone (TPrim PBool) (
  FNil))).
(* messages/alterconfigs/response/alterconfigsresourceresponse.go *)
Definition s_alterconfigs_response_AlterConfigsResourceResponse : sch := Sch 2 32767 (
  (* errorCode *) FCons (mkctx 0 32767 2 32767 0 0 0 0 None false) DNone (TPrim (PInt 2)) (
  (* errorMessage *) FCons (mkctx 0 32767 2 32767 0 32767 0 0 None false) DNone (TPrim PStr) (
  (* resourceType *) FCons (mkctx 0 32767 2 32767 0 0 0 0 None false) DNone (TPrim (PInt 1)) (
  (* resourceName *) FCons (mkctx 0 32767 2 32767 0 0 0 0 None false) DNone (TPrim PStr) (
  FNil))))).
(* messages/alterconfigs/response.go *)
Definition s_alterconfigs_Response : sch := Sch 2 32767 (
  (* throttleTimeMs *) FCons (mkctx 0 32767 2 32767 0 0 0 0 None false) DNone (TPrim (PInt 4)) (
  (* responses *) FCons (mkctx 0 32767 2 32767 0 0 0 0 None false) DNone (TArrS s_alterconfigs_response_AlterConfigsResourceResponse) (
  FNil))).
(* messages/alterpartition/request/topicdata/partitiondata.go *)
Definition s_alterpartition_request_topicdata_PartitionData : sch := Sch 0 32767 (
  (* partitionIndex *) FCons (mkctx 0 32767 0 32767 0 0 0 0 None false) DNone (TPrim (PInt 4)) (
  (* leaderEpoch *) FCons (mkctx 0 32767 0 32767 0 0 0 0 None false) DNone (TPrim (PInt 4)) (
  (* newIsr *) FCons (mkctx 0 32767 0 32767 0 0 0 0 None false) DNone (TArr (PInt 4)) (
  (* leaderRecoveryState *) FCons (mkctx 1 32767 0 32767 0 0 0 0 None false) DNone (TPrim (PInt 1)) (
  (* partitionEpoch *) FCons (mkctx 0 32767 0 32767 0 0 0 0 None false) DNone (TPrim (PInt 4)) (
  FNil)))))).
(* messages/alterpartition/request/topicdata.go *)
Definition s_alterpartition_request_TopicData : sch := Sch 0 32767 (
  (* topicName *) FCons (mkctx 0 1 0 32767 0 0 0 0 None false) DNone (TPrim PStr) (
  (* topicId *) FCons (mkctx 2 32767 0 32767 0 0 0 0 None true) DNone (TPrim PUuid) (
  (* partitions *) FCons (mkctx 0 32767 0 32767 0 0 0 0 None false) DNone (TArrS s_alterpartition_request_topicdata_PartitionData) (
  FNil)))).
(* messages/alterpartition/request.go *)
Definition s_alterpartition_Request : sch := Sch 0 32767 (
  (* brokerId *) FCons (mkctx 0 32767 0 32767 0 0 0 0 None false) DNone (TPrim (PInt 4)) (
  (* brokerEpoch *) FCons (mkctx 0 32767 0 32767 0 0 0 0 None false) (DInt (-1)) (TPrim (PInt 8)) (
  (* topics *) FCons (mkctx 0 32767 0 32767 0 0 0 0 None false) DNone (TArrS s_alterpartition_request_TopicData) (
  FNil)))).
(* messages/alterpartition/response/topicdata/partitiondata.go *)
Definition s_alterpartition_response_topicdata_PartitionData : sch := Sch 0 32767 (
  (* partitionIndex *) FCons (mkctx 0 32767 0 32767 0 0 0 0 None false) DNone (TPrim (PInt 4)) (
  (* errorCode *) FCons (mkctx 0 32767 0 32767 0 0 0 0 None false) DNone (TPrim (PInt 2)) (
  (* leaderId *) FCons (mkctx 0 32767 0 32767 0 0 0 0 None false) DNone (TPrim (PInt 4)) (
  (* leaderEpoch *) FCons (mkctx 0 32767 0 32767 0 0 0 0 None false) DNone (TPrim (PInt 4)) (
  (* isr *) FCons (mkctx 0 32767 0 32767 0 0 0 0 None false) DNone (TArr (PInt 4)) (
  (* leaderRecoveryState *) FCons (mkctx 1 32767 0 32767 0 0 0 0 None true) DNone (TPrim (PInt 1)) (
  (* partitionEpoch *) FCons (mkctx 0 32767 0 32767 0 0 0 0 None false) DNone (TPrim (PInt 4)) (
  FNil)))))))).
(* messages/alterpartition/response/topicdata.go *)
Definition s_alterpartition_response_TopicData : sch := Sch 0 32767 (
  (* topicName *) FCons (mkctx 0 1 0 32767 0 0 0 0 None false) DNone (TPrim PStr) (
  (* topicId *) FCons (mkctx 2 32767 0 32767 0 0 0 0 None true) DNone (TPrim PUuid) (
  (* partitions *) FCons (mkctx 0 32767 0 32767 0 0 0 0 None false) DNone (TArrS s_alterpartition_response_topicdata_PartitionData) (
  FNil)))).
(* messages/alterpartition/response.go *)
Definition s_alterpartition_Response : sch := Sch 0 32767 (
  (* throttleTimeMs *) FCons (mkctx 0 32767 0 32767 0 0 0 0 None false) DNone (TPrim (PInt 4)) (
  (* errorCode *) FCons (mkctx 0 32767 0 32767 0 0 0 0 None false) DNone (TPrim (PInt 2)) (
  (* topics *) FCons (mkctx 0 32767 0 32767 0 0 0 0 None false) DNone (TArrS s_alterpartition_response_TopicData) (
  FNil)))).
(* messages/alterpartitionreassignments/request/reassignabletopic/reassignablepartition.go *)
Definition s_alterpartitionreassignments_request_reassignabletopic_ReassignablePartition : sch := Sch 0 32767 (
  (* partitionIndex *) FCons (mkctx 0 32767 0 32767 0 0 0 0 None false) DNone (TPrim (PInt 4)) (
  (* replicas *) FCons (mkctx 0 32767 0 32767 0 32767 0 0 None false) DNone (TArr (PInt 4)) (
  FNil))).
(* messages/alterpartitionreassignments/request/reassignabletopic.go *)
Definition s_alterpartitionreassignments_request_ReassignableTopic : sch := Sch 0 32767 (
  (* name *) FCons (mkctx 0 32767 0 32767 0 0 0 0 None false) DNone (TPrim PStr) (
  (* partitions *) FCons (mkctx 0 32767 0 32767 0 0 0 0 None false) DNone (TArrS s_alterpartitionreassignments_request_reassignabletopic_ReassignablePartition) (
  FNil))).
(* messages/alterpartitionreassignments/request.go *)
Definition s_alterpartitionreassignments_Request : sch := Sch 0 32767 (
  (* timeoutMs *) FCons (mkctx 0 32767 0 32767 0 0 0 0 None false) (DInt 60000) (TPrim (PInt 4)) (
  (* topics *) FCons (mkctx 0 32767 0 32767 0 0 0 0 None false) DNone (TArrS s_alterpartitionreassignments_request_ReassignableTopic) (
  FNil))).
(* messages/alterpartitionreassignments/response/reassignabletopicresponse/reassignablepartitionresponse.go *)
Definition s_alterpartitionreassignments_response_reassignabletopicresponse_ReassignablePartitionResponse : sch := Sch 0 32767 (
  (* partitionIndex *) FCons (mkctx 0 32767 0 32767 0 0 0 0 None false) DNone (TPrim (PInt 4)) (
  (* errorCode *) FCons (mkctx 0 32767 0 32767 0 0 0 0 None false) DNone (TPrim (PInt 2)) (
  (* errorMessage *) FCons (mkctx 0 32767 0 32767 0 32767 0 0 None false) DNone (TPrim PStr) (
  FNil)))).
(* messages/alterpartitionreassignments/response/reassignabletopicresponse.go *)
Definition s_alterpartitionreassignments_response_ReassignableTopicResponse : sch := Sch 0 32767 (
  (* name *) FCons (mkctx 0 32767 0 32767 0 0 0 0 None false) DNone (TPrim PStr) (
  (* partitions *) FCons (mkctx 0 32767 0 32767 0 0 0 0 None false) DNone (TArrS s_alterpartitionreassignments_response_reassignabletopicresponse_ReassignablePartitionResponse) (
  FNil))).
(* messages/alterpartitionreassignments/response.go *)
Definition s_alterpartitionreassignments_Response : sch := Sch 0 32767 (
  (* throttleTimeMs *) FCons (mkctx 0 32767 0 32767 0 0 0 0 None false) DNone (TPrim (PInt 4)) (
  (* errorCode *) FCons (mkctx 0 32767 0 32767 0 0 0 0 None false) DNone (TPrim (PInt 2)) (
  (* errorMessage *) FCons (mkctx 0 32767 0 32767 0 32767 0 0 None false) DNone (TPrim PStr) (
  (* responses *) FCons (mkctx 0 32767 0 32767 0 0 0 0 None false) DNone (TArrS s_alterpartitionreassignments_response_ReassignableTopicResponse) (
  FNil))))).
(* messages/alterreplicalogdirs/request/alterreplicalogdir/alterreplicalogdirtopic.go *)
Definition s_alterreplicalogdirs_request_alterreplicalogdir_AlterReplicaLogDirTopic : sch := Sch 2 32767 (
  (* name *) FCons (mkctx 0 32767 2 32767 0 0 0 0 None false) DNone (TPrim PStr) (
  (* partitions *) FCons (mkctx 0 32767 2 32767 0 0 0 0 None false) DNone (TArr (PInt 4)) (
  FNil))).
(* messages/alterreplicalogdirs/request/alterreplicalogdir.go *)
Definition s_alterreplicalogdirs_request_AlterReplicaLogDir : sch := Sch 2 32767 (
  (* path *) FCons (mkctx 0 32767 2 32767 0 0 0 0 None false) DNone (TPrim PStr) (
  (* topics *) FCons (mkctx 0 32767 2 32767 0 0 0 0 None false) DNone (TArrS s_alterreplicalogdirs_request_alterreplicalogdir_AlterReplicaLogDirTopic) (
  FNil))).
(* messages/alterreplicalogdirs/request.go *)
Definition s_alterreplicalogdirs_Request : sch := Sch 2 32767 (
  (* dirs *) FCons (mkctx 0 32767 2 32767 0 0 0 0 None false) DNone (TArrS s_alterreplicalogdirs_request_AlterReplicaLogDir) (
  FNil)).
(* messages/alterreplicalogdirs/response/alterreplicalogdirtopicresult/alterreplicalogdirpartitionresult.go *)
Definition s_alterreplicalogdirs_response_alterreplicalogdirtopicresult_AlterReplicaLogDirPartitionResult : sch := Sch 2 32767 (
  (* partitionIndex *) FCons (mkctx 0 32767 2 32767 0 0 0 0 None false) DNone (TPrim (PInt 4)) (
  (* errorCode *) FCons (mkctx 0 32767 2 32767 0 0 0 0 None false) DNone (TPrim (PInt 2)) (
  FNil))).
(* messages/alterreplicalogdirs/response/alterreplicalogdirtopicresult.go *)
Definition s_alterreplicalogdirs_response_AlterReplicaLogDirTopicResult : sch := Sch 2 32767 (
  (* topicName *) FCons (mkctx 0 32767 2 32767 0 0 0 0 None false) DNone (TPrim PStr) (
  (* partitions *) FCons (mkctx 0 32767 2 32767 0 0 0 0 None false) DNone (TArrS s_alterreplicalogdirs_response_alterreplicalogdirtopicresult_AlterReplicaLogDirPartitionResult) (
  FNil))).
(* messages/alterreplicalogdirs/response.go *)
Definition s_alterreplicalogdirs_Response : sch := Sch 2 32767 (
  (* throttleTimeMs *) FCons (mkctx 0 32767 2 32767 0 0 0 0 None false) DNone (TPrim (PInt 4)) (
  (* results *) FCons (mkctx 0 32767 2 32767 0 0 0 0 None false) DNone (TArrS s_alterreplicalogdirs_response_AlterReplicaLogDirTopicResult) (
  FNil))).
(* messages/alteruserscramcredentials/request/scramcredentialdeletion.go *)
Definition s_alteruserscramcredentials_request_ScramCredentialDeletion : sch := Sch 0 32767 (
  (* name *) FCons (mkctx 0 32767 0 32767 0 0 0 0 None false) DNone (TPrim PStr) (
  (* mechanism *) FCons (mkctx 0 32767 0 32767 0 0 0 0 None false) DNone (TPrim (PInt 1)) (
  FNil))).
(* messages/alteruserscramcredentials/request/scramcredentialupsertion.go *)
Definition s_alteruserscramcredentials_request_ScramCredentialUpsertion : sch := Sch 0 32767 (
  (* name *) FCons (mkctx 0 32767 0 32767 0 0 0 0 None false) DNone (TPrim PStr) (
  (* mechanism *) FCons (mkctx 0 32767 0 32767 0 0 0 0 None false) DNone (TPrim (PInt 1)) (
  (* iterations *) FCons (mkctx 0 32767 0 32767 0 0 0 0 None false) DNone (TPrim (PInt 4)) (
  (* salt *) FCons (mkctx 0 32767 0 32767 0 0 0 0 None false) DNone (TPrim PBytes) (
  (* saltedPassword *) FCons (mkctx 0 32767 0 32767 0 0 0 0 None false) DNone (TPrim PBytes) (
  FNil)))))).
(* messages/alteruserscramcredentials/request.go *)
Definition s_alteruserscramcredentials_Request : sch := Sch 0 32767 (
  (* deletions *) FCons (mkctx 0 32767 0 32767 0 0 0 0 None false) DNone (TArrS s_alteruserscramcredentials_request_ScramCredentialDeletion) (
  (* upsertions *) FCons (mkctx 0 32767 0 32767 0 0 0 0 None false) DNone (TArrS s_alteruserscramcredentials_request_ScramCredentialUpsertion) (
  FNil))).
(* messages/alteruserscramcredentials/response/alteruserscramcredentialsresult.go *)
Definition s_alteruserscramcredentials_response_AlterUserScramCredentialsResult : sch := Sch 0 32767 (
  (* user *) FCons (mkctx 0 32767 0 32767 0 0 0 0 None false) DNone (TPrim PStr) (
  (* errorCode *) FCons (mkctx 0 32767 0 32767 0 0 0 0 None false) DNone (TPrim (PInt 2)) (
  (* errorMessage *) FCons (mkctx 0 32767 0 32767 0 32767 0 0 None false) DNone (TPrim PStr) (
  FNil)))).
(* messages/alteruserscramcredentials/response.go *)
Definition s_alteruserscramcredentials_Response : sch := Sch 0 32767 (
  (* throttleTimeMs *) FCons (mkctx 0 32767 0 32767 0 0 0 0 None false) DNone (TPrim (PInt 4)) (
  (* results *) FCons (mkctx 0 32767 0 32767 0 0 0 0 None false) DNone (TArrS s_alteruserscramcredentials_response_AlterUserScramCredentialsResult) (
  FNil))).
(* messages/apiversions/request.go *)
Definition s_apiversions_Request : sch := Sch 3 32767 (
  (* clientSoftwareName *) FCons (mkctx 3 32767 3 32767 0 0 0 0 None true) DNone (TPrim PStr) (
  (* clientSoftwareVersion *) FCons (mkctx 3 32767 3 32767 0 0 0 0 None true) DNone (TPrim PStr) (
  FNil))).
(* messages/apiversions/response/apiversion.go *)
Definition s_apiversions_response_ApiVersion : sch := Sch 3 32767 (
  (* apiKey *) FCons (mkctx 0 32767 3 32767 0 0 0 0 None false) DNone (TPrim (PInt 2)) (
  (* minVersion *) FCons (mkctx 0 32767 3 32767 0 0 0 0 None false) DNone (TPrim (PInt 2)) (
  (* maxVersion *) FCons (mkctx 0 32767 3 32767 0 0 0 0 None false) DNone (TPrim (PInt 2)) (
  FNil)))).
(* messages/apiversions/response/supportedfeaturekey.go *)
Definition s_apiversions_response_SupportedFeatureKey : sch := Sch 3 32767 (
  (* name *) FCons (mkctx 3 32767 3 32767 0 0 0 0 None false) DNone (TPrim PStr) (
  (* minVersion *) FCons (mkctx 3 32767 3 32767 0 0 0 0 None false) DNone (TPrim (PInt 2)) (
  (* maxVersion *) FCons (mkctx 3 32767 3 32767 0 0 0 0 None false) DNone (TPrim (PInt 2)) (
  FNil)))).
(* messages/apiversions/response/finalizedfeaturekey.go *)
Definition s_apiversions_response_FinalizedFeatureKey : sch := Sch 3 32767 (
  (* name *) FCons (mkctx 3 32767 3 32767 0 0 0 0 None false) DNone (TPrim PStr) (
  (* maxVersionLevel *) FCons (mkctx 3 32767 3 32767 0 0 0 0 None false) DNone (TPrim (PInt 2)) (
  (* minVersionLevel *) FCons (mkctx 3 32767 3 32767 0 0 0 0 None false) DNone (TPrim (PInt 2)) (
  FNil)))).
(* messages/apiversions/response.go *)
Definition s_apiversions_Response : sch := Sch 3 32767 (
  (* errorCode *) FCons (mkctx 0 32767 3 32767 0 0 0 0 None false) DNone (TPrim (PInt 2)) (
  (* apiKeys *) FCons (mkctx 0 32767 3 32767 0 0 0 0 None false) DNone (TArrS s_apiversions_response_ApiVersion) (
  (* throttleTimeMs *) FCons (mkctx 1 32767 3 32767 0 0 0 0 None true) DNone (TPrim (PInt 4)) (
  (* supportedFeatures *) FCons (mkctx 3 32767 3 32767 0 0 3 32767 (Some 0) true) DNone (TArrS s_apiversions_response_SupportedFeatureKey) (
  (* finalizedFeaturesEpoch *) FCons (mkctx 3 32767 3 32767 0 0 3 32767 (Some 1) true) (DInt (-1)) (TPrim (PInt 8)) (
  (* finalizedFeatures *) FCons (mkctx 3 32767 3 32767 0 0 3 32767 (Some 2) true) DNone (TArrS s_apiversions_response_FinalizedFeatureKey) (
  (* zkMigrationReady *) FCons (mkctx 3 32767 3 32767 0 0 3 32767 (Some 3) true) DNone (TPrim PBool) (
  FNil)))))))).
(* messages/beginquorumepoch/request/topicdata/partitiondata.go *)
Definition s_beginquorumepoch_request_topicdata_PartitionData : sch := Sch 32767 32767 (
  (* partitionIndex *) FCons (mkctx 0 32767 32767 32767 0 0 0 0 None false) DNone (TPrim (PInt 4)) (
  (* leaderId *) FCons (mkctx 0 32767 32767 32767 0 0 0 0 None false) DNone (TPrim (PInt 4)) (
  (* leaderEpoch *) FCons (mkctx 0 32767 32767 32767 0 0 0 0 None false) DNone (TPrim (PInt 4)) (
  FNil)))).
(* messages/beginquorumepoch/request/topicdata.go *)
Definition s_beginquorumepoch_request_TopicData : sch := Sch 32767 32767 (
  (* topicName *) FCons (mkctx 0 32767 32767 32767 0 0 0 0 None false) DNone (TPrim PStr) (
  (* partitions *) FCons (mkctx 0 32767 32767 32767 0 0 0 0 None false) DNone (TArrS s_beginquorumepoch_request_topicdata_PartitionData) (
  FNil))).
(* messages/beginquorumepoch/request.go *)
Definition s_beginquorumepoch_Request : sch := Sch 32767 32767 (
  (* clusterId *) FCons (mkctx 0 32767 32767 32767 0 32767 0 0 None false) (DStr null_text) (TPrim PStr) (
  (* topics *) FCons (mkctx 0 32767 32767 32767 0 0 0 0 None false) DNone (TArrS s_beginquorumepoch_request_TopicData) (
  FNil))).
(* messages/beginquorumepoch/response/topicdata/partitiondata.go *)
Definition s_beginquorumepoch_response_topicdata_PartitionData : sch := Sch 32767 32767 (
  (* partitionIndex *) FCons (mkctx 0 32767 32767 32767 0 0 0 0 None false) DNone (TPrim (PInt 4)) (
  (* errorCode *) FCons (mkctx 0 32767 32767 32767 0 0 0 0 None false) DNone (TPrim (PInt 2)) (
  (* leaderId *) FCons (mkctx 0 32767 32767 32767 0 0 0 0 None false) DNone (TPrim (PInt 4)) (
  (* leaderEpoch *) FCons (mkctx 0 32767 32767 32767 0 0 0 0 None false) DNone (TPrim (PInt 4)) (
  FNil))))).
(* messages/beginquorumepoch/response/topicdata.go *)
Definition s_beginquorumepoch_response_TopicData : sch := Sch 32767 32767 (
  (* topicName *) FCons (mkctx 0 32767 32767 32767 0 0 0 0 None false) DNone (TPrim PStr) (
  (* partitions *) FCons (mkctx 0 32767 32767 32767 0 0 0 0 None false) DNone (TArrS s_beginquorumepoch_response_topicdata_PartitionData) (
  FNil))).
(* messages/beginquorumepoch/response.go *)
Definition s_beginquorumepoch_Response : sch := Sch 32767 32767 (
  (* errorCode *) FCons (mkctx 0 32767 32767 32767 0 0 0 0 None false) DNone (TPrim (PInt 2)) (
  (* topics *) FCons (mkctx 0 32767 32767 32767 0 0 0 0 None false) DNone (TArrS s_beginquorumepoch_response_TopicData) (
  FNil))).
(* messages/brokerheartbeat/request.go *)
Definition s_brokerheartbeat_Request : sch := Sch 0 32767 (
  (* brokerId *) FCons (mkctx 0 32767 0 32767 0 0 0 0 None false) DNone (TPrim (PInt 4)) (
  (* brokerEpoch *) FCons (mkctx 0 32767 0 32767 0 0 0 0 None false) (DInt (-1)) (TPrim (PInt 8)) (
  (* currentMetadataOffset *) FCons (mkctx 0 32767 0 32767 0 0 0 0 None false) DNone (TPrim (PInt 8)) (
  (* wantFence *) FCons (mkctx 0 32767 0 32767 0 0 0 0 None false) DNone (TPrim PBool) (
  (* wantShutDown *) FCons (mkctx 0 32767 0 32767 0 0 0 0 None false) DNone (TPrim PBool) (
  FNil)))))).
(* messages/brokerheartbeat/response.go *)
Definition s_brokerheartbeat_Response : sch := Sch 0 32767 (
  (* throttleTimeMs *) FCons (mkctx 0 32767 0 32767 0 0 0 0 None false) DNone (TPrim (PInt 4)) (
  (* errorCode *) FCons (mkctx 0 32767 0 32767 0 0 0 0 None false) DNone (TPrim (PInt 2)) (
  (* isCaughtUp *) FCons (mkctx 0 32767 0 32767 0 0 0 0 None false) DNone (TPrim PBool) (
  (* isFenced *) FCons (mkctx 0 32767 0 32767 0 0 0 0 None false) (DBool true) (TPrim PBool) (
  (* shouldShutDown *) FCons (mkctx 0 32767 0 32767 0 0 0 0 None false) DNone (TPrim PBool) (
  FNil)))))).
(* messages/brokerregistration/request/listener.go *)
Definition s_brokerregistration_request_Listener : sch := Sch 0 32767 (
  (* name *) FCons (mkctx 0 32767 0 32767 0 0 0 0 None false) DNone (TPrim PStr) (
  (* host *) FCons (mkctx 0 32767 0 32767 0 0 0 0 None false) DNone (TPrim PStr) (
  (* port *) FCons (mkctx 0 32767 0 32767 0 0 0 0 None false) DNone (TPrim PUint16) (
  (* securityProtocol *) FCons (mkctx 0 32767 0 32767 0 0 0 0 None false) DNone (TPrim (PInt 2)) (
  FNil))))).
(* messages/brokerregistration/request/feature.go *)
Definition s_brokerregistration_request_Feature : sch := Sch 0 32767 (
  (* name *) FCons (mkctx 0 32767 0 32767 0 0 0 0 None false) DNone (TPrim PStr) (
  (* minSupportedVersion *) FCons (mkctx 0 32767 0 32767 0 0 0 0 None false) DNone (TPrim (PInt 2)) (
  (* maxSupportedVersion *) FCons (mkctx 0 32767 0 32767 0 0 0 0 None false) DNone (TPrim (PInt 2)) (
  FNil)))).
(* messages/brokerregistration/request.go *)
Definition s_brokerregistration_Request : sch := Sch 0 32767 (
  (* brokerId *) FCons (mkctx 0 32767 0 32767 0 0 0 0 None false) DNone (TPrim (PInt 4)) (
  (* clusterId *) FCons (mkctx 0 32767 0 32767 0 0 0 0 None false) DNone (TPrim PStr) (
  (* incarnationId *) FCons (mkctx 0 32767 0 32767 0 0 0 0 None false) DNone (TPrim PUuid) (
  (* listeners *) FCons (mkctx 0 32767 0 32767 0 0 0 0 None false) DNone (TArrS s_brokerregistration_request_Listener) (
  (* features *) FCons (mkctx 0 32767 0 32767 0 0 0 0 None false) DNone (TArrS s_brokerregistration_request_Feature) (
  (* rack *) FCons (mkctx 0 32767 0 32767 0 32767 0 0 None false) DNone (TPrim PStr) (
  (* isMigratingZkBroker *) FCons (mkctx 1 32767 0 32767 0 0 0 0 None false) DNone (TPrim PBool) (
  FNil)))))))).
(* messages/brokerregistration/response.go *)
Definition s_brokerregistration_Response : sch := Sch 0 32767 (
  (* throttleTimeMs *) FCons (mkctx 0 32767 0 32767 0 0 0 0 None false) DNone (TPrim (PInt 4)) (
  (* errorCode *) FCons (mkctx 0 32767 0 32767 0 0 0 0 None false) DNone (TPrim (PInt 2)) (
  (* brokerEpoch *) FCons (mkctx 0 32767 0 32767 0 0 0 0 None false) (DInt (-1)) (TPrim (PInt 8)) (
  FNil)))).
(* messages/controlledshutdown/request.go *)
Definition s_controlledshutdown_Request : sch := Sch 3 32767 (
  (* brokerId *) FCons (mkctx 0 32767 3 32767 0 0 0 0 None false) DNone (TPrim (PInt 4)) (
  (* brokerEpoch *) FCons (mkctx 2 32767 3 32767 0 0 0 0 None true) (DInt (-1)) (TPrim (PInt 8)) (
  FNil))).
(* messages/controlledshutdown/response/remainingpartition.go *)
Definition s_controlledshutdown_response_RemainingPartition : sch := Sch 3 32767 (
  (* topicName *) FCons (mkctx 0 32767 3 32767 0 0 0 0 None false) DNone (TPrim PStr) (
  (* partitionIndex *) FCons (mkctx 0 32767 3 32767 0 0 0 0 None false) DNone (TPrim (PInt 4)) (
  FNil))).
(* messages/controlledshutdown/response.go *)
Definition s_controlledshutdown_Response : sch := Sch 3 32767 (
  (* errorCode *) FCons (mkctx 0 32767 3 32767 0 0 0 0 None false) DNone (TPrim (PInt 2)) (
  (* remainingPartitions *) FCons (mkctx 0 32767 3 32767 0 0 0 0 None false) DNone (TArrS s_controlledshutdown_response_RemainingPartition) (
  FNil))).
(* messages/createacls/request/aclcreation.go *)
Definition s_createacls_request_AclCreation : sch := Sch 2 32767 (
  (* resourceType *) FCons (mkctx 0 32767 2 32767 0 0 0 0 None false) DNone (TPrim (PInt 1)) (
  (* resourceName *) FCons (mkctx 0 32767 2 32767 0 0 0 0 None false) DNone (TPrim PStr) (
  (* resourcePatternType *) FCons (mkctx 1 32767 2 32767 0 0 0 0 None false) (DInt 3) (TPrim (PInt 1)) (
  (* principal *) FCons (mkctx 0 32767 2 32767 0 0 0 0 None false) DNone (TPrim PStr) (
  (* host *) FCons (mkctx 0 32767 2 32767 0 0 0 0 None false) DNone (TPrim PStr) (
  (* operation *) FCons (mkctx 0 32767 2 32767 0 0 0 0 None false) DNone (TPrim (PInt 1)) (
  (* permissionType *) FCons (mkctx 0 32767 2 32767 0 0 0 0 None false) DNone (TPrim (PInt 1)) (
  FNil)))))))).
(* messages/createacls/request.go *)
Definition s_createacls_Request : sch := Sch 2 32767 (
  (* creations *) FCons (mkctx 0 32767 2 32767 0 0 0 0 None false) DNone (TArrS s_createacls_request_AclCreation) (
  FNil)).
(* messages/createacls/response/aclcreationresult.go *)
Definition s_createacls_response_AclCreationResult : sch := Sch 2 32767 (
  (* errorCode *) FCons (mkctx 0 32767 2 32767 0 0 0 0 None false) DNone (TPrim (PInt 2)) (
  (* errorMessage *) FCons (mkctx 0 32767 2 32767 0 32767 0 0 None false) DNone (TPrim PStr) (
  FNil))).
(* messages/createacls/response.go *)
Definition s_createacls_Response : sch := Sch 2 32767 (
  (* throttleTimeMs *) FCons (mkctx 0 32767 2 32767 0 0 0 0 None false) DNone (TPrim (PInt 4)) (
  (* results *) FCons (mkctx 0 32767 2 32767 0 0 0 0 None false) DNone (TArrS s_createacls_response_AclCreationResult) (
  FNil))).
(* messages/createdelegationtoken/request/creatablerenewers.go *)
Definition s_createdelegationtoken_request_CreatableRenewers : sch := Sch 2 32767 (
  (* principalType *) FCons (mkctx 0 32767 2 32767 0 0 0 0 None false) DNone (TPrim PStr) (
  (* principalName *) FCons (mkctx 0 32767 2 32767 0 0 0 0 None false) DNone (TPrim PStr) (
  FNil))).
(* messages/createdelegationtoken/request.go *)
Definition s_createdelegationtoken_Request : sch := Sch 2 32767 (
  (* ownerPrincipalType *) FCons (mkctx 3 32767 2 32767 3 32767 0 0 None false) DNone (TPrim PStr) (
  (* ownerPrincipalName *) FCons (mkctx 3 32767 2 32767 3 32767 0 0 None false) DNone (TPrim PStr) (
  (* renewers *) FCons (mkctx 0 32767 2 32767 0 0 0 0 None false) DNone (TArrS s_createdelegationtoken_request_CreatableRenewers) (
  (* maxLifetimeMs *) FCons (mkctx 0 32767 2 32767 0 0 0 0 None false) DNone (TPrim (PInt 8)) (
  FNil))))).
(* messages/createdelegationtoken/response.go *)
Definition s_createdelegationtoken_Response : sch := Sch 2 32767 (
  (* errorCode *) FCons (mkctx 0 32767 2 32767 0 0 0 0 None false) DNone (TPrim (PInt 2)) (
  (* principalType *) FCons (mkctx 0 32767 2 32767 0 0 0 0 None false) DNone (TPrim PStr) (
  (* principalName *) FCons (mkctx 0 32767 2 32767 0 0 0 0 None false) DNone (TPrim PStr) (
  (* tokenRequesterPrincipalType *) FCons (mkctx 3 32767 2 32767 0 0 0 0 None false) DNone (TPrim PStr) (
  (* tokenRequesterPrincipalName *) FCons (mkctx 3 32767 2 32767 0 0 0 0 None false) DNone (TPrim PStr) (
  (* issueTimestampMs *) FCons (mkctx 0 32767 2 32767 0 0 0 0 None false) DNone (TPrim (PInt 8)) (
  (* expiryTimestampMs *) FCons (mkctx 0 32767 2 32767 0 0 0 0 None false) DNone (TPrim (PInt 8)) (
  (* maxTimestampMs *) FCons (mkctx 0 32767 2 32767 0 0 0 0 None false) DNone (TPrim (PInt 8)) (
  (* tokenId *) FCons (mkctx 0 32767 2 32767 0 0 0 0 None false) DNone (TPrim PStr) (
  (* hmac *) FCons (mkctx 0 32767 2 32767 0 0 0 0 None false) DNone (TPrim PBytes) (
  (* throttleTimeMs *) FCons (mkctx 0 32767 2 32767 0 0 0 0 None false) DNone (TPrim (PInt 4)) (
  FNil)))))))))))).
(* messages/createpartitions/request/createpartitionstopic/createpartitionsassignment.go *)
Definition s_createpartitions_request_createpartitionstopic_CreatePartitionsAssignment : sch := Sch 2 32767 (
  (* brokerIds *) FCons (mkctx 0 32767 2 32767 0 32767 0 0 None false) DNone (TArr (PInt 4)) (
  FNil)).
(* messages/createpartitions/request/createpartitionstopic.go *)
Definition s_createpartitions_request_CreatePartitionsTopic : sch := Sch 2 32767 (
  (* name *) FCons (mkctx 0 32767 2 32767 0 0 0 0 None false) DNone (TPrim PStr) (
  (* count *) FCons (mkctx 0 32767 2 32767 0 0 0 0 None false) DNone (TPrim (PInt 4)) (
  (* assignments *) FCons (mkctx 0 32767 2 32767 0 32767 0 0 None false) DNone (TArrS s_createpartitions_request_createpartitionstopic_CreatePartitionsAssignment) (
  FNil)))).
(* messages/createpartitions/request.go *)
Definition s_createpartitions_Request : sch := Sch 2 32767 (
  (* topics *) FCons (mkctx 0 32767 2 32767 0 0 0 0 None false) DNone (TArrS s_createpartitions_request_CreatePartitionsTopic) (
  (* timeoutMs *) FCons (mkctx 0 32767 2 32767 0 0 0 0 None false) DNone (TPrim (PInt 4)) (
  (* validateOnly *) FCons (mkctx 0 32767 2 32767 0 0 0 0 None false) DNone (TPrim PBool) (
  FNil)))).
(* messages/createpartitions/response/createpartitionstopicresult.go *)
Definition s_createpartitions_response_CreatePartitionsTopicResult : sch := Sch 2 32767 (
  (* name *) FCons (mkctx 0 32767 2 32767 0 0 0 0 None false) DNone (TPrim PStr) (
  (* errorCode *) FCons (mkctx 0 32767 2 32767 0 0 0 0 None false) DNone (TPrim (PInt 2)) (
  (* errorMessage *) FCons (mkctx 0 32767 2 32767 0 32767 0 0 None false) (DStr null_text) (TPrim PStr) (
  FNil)))).
(* messages/createpartitions/response.go *)
Definition s_createpartitions_Response : sch := Sch 2 32767 (
  (* throttleTimeMs *) FCons (mkctx 0 32767 2 32767 0 0 0 0 None false) DNone (TPrim (PInt 4)) (
  (* results *) FCons (mkctx 0 32767 2 32767 0 0 0 0 None false) DNone (TArrS s_createpartitions_response_CreatePartitionsTopicResult) (
  FNil))).
(* messages/createtopics/request/creatabletopic/creatablereplicaassignment.go *)
Definition s_createtopics_request_creatabletopic_CreatableReplicaAssignment : sch := Sch 5 32767 (
  (* partitionIndex *) FCons (mkctx 0 32767 5 32767 0 0 0 0 None false) DNone (TPrim (PInt 4)) (
  (* brokerIds *) FCons (mkctx 0 32767 5 32767 0 0 0 0 None false) DNone (TArr (PInt 4)) (
  FNil))).
(* messages/createtopics/request/creatabletopic/createabletopicconfig.go *)
Definition s_createtopics_request_creatabletopic_CreateableTopicConfig : sch := Sch 5 32767 (
  (* name *) FCons (mkctx 0 32767 5 32767 0 0 0 0 None false) DNone (TPrim PStr) (
  (* value *) FCons (mkctx 0 32767 5 32767 0 32767 0 0 None false) DNone (TPrim PStr) (
  FNil))).
(* messages/createtopics/request/creatabletopic.go *)
Definition s_createtopics_request_CreatableTopic : sch := Sch 5 32767 (
  (* name *) FCons (mkctx 0 32767 5 32767 0 0 0 0 None false) DNone (TPrim PStr) (
  (* numPartitions *) FCons (mkctx 0 32767 5 32767 0 0 0 0 None false) DNone (TPrim (PInt 4)) (
  (* replicationFactor *) FCons (mkctx 0 32767 5 32767 0 0 0 0 None false) DNone (TPrim (PInt 2)) (
  (* assignments *) FCons (mkctx 0 32767 5 32767 0 0 0 0 None false) DNone (TArrS s_createtopics_request_creatabletopic_CreatableReplicaAssignment) (
  (* configs *) FCons (mkctx 0 32767 5 32767 0 0 0 0 None false) DNone (TArrS s_createtopics_request_creatabletopic_CreateableTopicConfig) (
  FNil)))))).
(* messages/createtopics/request.go *)
Definition s_createtopics_Request : sch := Sch 5 32767 (
  (* topics *) FCons (mkctx 0 32767 5 32767 0 0 0 0 None false) DNone (TArrS s_createtopics_request_CreatableTopic) (
  (* timeoutMs *) FCons (mkctx 0 32767 5 32767 0 0 0 0 None false) (DInt 60000) (TPrim (PInt 4)) (
  (* validateOnly *) FCons (mkctx 1 32767 5 32767 0 0 0 0 None false) DNone (TPrim PBool) (
  FNil)))).
(* messages/createtopics/response/creatabletopicresult/creatabletopicconfigs.go *)
Definition s_createtopics_response_creatabletopicresult_CreatableTopicConfigs : sch := Sch 5 32767 (
  (* name *) FCons (mkctx 5 32767 5 32767 5 32767 0 0 None false) DNone (TPrim PStr) (
  (* value *) FCons (mkctx 5 32767 5 32767 5 32767 0 0 None false) DNone (TPrim PStr) (
  (* readOnly *) FCons (mkctx 5 32767 5 32767 5 32767 0 0 None false) DNone (TPrim PBool) (
  (* configSource *) FCons (mkctx 5 32767 5 32767 5 32767 0 0 None true) (DInt (-1)) (TPrim (PInt 1)) (
  (* isSensitive *) FCons (mkctx 5 32767 5 32767 5 32767 0 0 None false) DNone (TPrim PBool) (
  FNil)))))).
(* messages/createtopics/response/creatabletopicresult.go *)
Definition s_createtopics_response_CreatableTopicResult : sch := Sch 5 32767 (
  (* name *) FCons (mkctx 0 32767 5 32767 0 0 0 0 None false) DNone (TPrim PStr) (
  (* topicId *) FCons (mkctx 7 32767 5 32767 0 0 0 0 None true) DNone (TPrim PUuid) (
  (* errorCode *) FCons (mkctx 0 32767 5 32767 0 0 0 0 None false) DNone (TPrim (PInt 2)) (
  (* errorMessage *) FCons (mkctx 1 32767 5 32767 0 32767 0 0 None true) DNone (TPrim PStr) (
  (* topicConfigErrorCode *) FCons (mkctx 5 32767 5 32767 0 0 5 32767 (Some 0) true) DNone (TPrim (PInt 2)) (
  (* numPartitions *) FCons (mkctx 5 32767 5 32767 0 0 0 0 None true) (DInt (-1)) (TPrim (PInt 4)) (
  (* replicationFactor *) FCons (mkctx 5 32767 5 32767 0 0 0 0 None true) (DInt (-1)) (TPrim (PInt 2)) (
  (* configs *) FCons (mkctx 5 32767 5 32767 5 32767 0 0 None true) DNone (TArrS s_createtopics_response_creatabletopicresult_CreatableTopicConfigs) (
  FNil))))))))).
(* messages/createtopics/response.go *)
Definition s_createtopics_Response : sch := Sch 5 32767 (
  (* throttleTimeMs *) FCons (mkctx 2 32767 5 32767 0 0 0 0 None true) DNone (TPrim (PInt 4)) (
  (* topics *) FCons (mkctx 0 32767 5 32767 0 0 0 0 None false) DNone (TArrS s_createtopics_response_CreatableTopicResult) (
  FNil))).
(* messages/deleteacls/request/deleteaclsfilter.go *)
Definition s_deleteacls_request_DeleteAclsFilter : sch := Sch 2 32767 (
  (* resourceTypeFilter *) FCons (mkctx 0 32767 2 32767 0 0 0 0 None false) DNone (TPrim (PInt 1)) (
  (* resourceNameFilter *) FCons (mkctx 0 32767 2 32767 0 32767 0 0 None false) DNone (TPrim PStr) (
  (* patternTypeFilter *) FCons (mkctx 1 32767 2 32767 0 0 0 0 None false) (DInt 3) (TPrim (PInt 1)) (
  (* principalFilter *) FCons (mkctx 0 32767 2 32767 0 32767 0 0 None false) DNone (TPrim PStr) (
  (* hostFilter *) FCons (mkctx 0 32767 2 32767 0 32767 0 0 None false) DNone (TPrim PStr) (
  (* operation *) FCons (mkctx 0 32767 2 32767 0 0 0 0 None false) DNone (TPrim (PInt 1)) (
  (* permissionType *) FCons (mkctx 0 32767 2 32767 0 0 0 0 None false) DNone (TPrim (PInt 1)) (
  FNil)))))))).
(* messages/deleteacls/request.go *)
Definition s_deleteacls_Request : sch := Sch 2 32767 (
  (* filters *) FCons (mkctx 0 32767 2 32767 0 0 0 0 None false) DNone (TArrS s_deleteacls_request_DeleteAclsFilter) (
  FNil)).
(* messages/deleteacls/response/deleteaclsfilterresult/deleteaclsmatchingacl.go *)
Definition s_deleteacls_response_deleteaclsfilterresult_DeleteAclsMatchingAcl : sch := Sch 2 32767 (
  (* errorCode *) FCons (mkctx 0 32767 2 32767 0 0 0 0 None false) DNone (TPrim (PInt 2)) (
  (* errorMessage *) FCons (mkctx 0 32767 2 32767 0 32767 0 0 None false) DNone (TPrim PStr) (
  (* resourceType *) FCons (mkctx 0 32767 2 32767 0 0 0 0 None false) DNone (TPrim (PInt 1)) (
  (* resourceName *) FCons (mkctx 0 32767 2 32767 0 0 0 0 None false) DNone (TPrim PStr) (
  (* patternType *) FCons (mkctx 1 32767 2 32767 0 0 0 0 None false) (DInt 3) (TPrim (PInt 1)) (
  (* principal *) FCons (mkctx 0 32767 2 32767 0 0 0 0 None false) DNone (TPrim PStr) (
  (* host *) FCons (mkctx 0 32767 2 32767 0 0 0 0 None false) DNone (TPrim PStr) (
  (* operation *) FCons (mkctx 0 32767 2 32767 0 0 0 0 None false) DNone (TPrim (PInt 1)) (
  (* permissionType *) FCons (mkctx 0 32767 2 32767 0 0 0 0 None false) DNone (TPrim (PInt 1)) (
  FNil)))))))))).
(* messages/deleteacls/response/deleteaclsfilterresult.go *)
Definition s_deleteacls_response_DeleteAclsFilterResult : sch := Sch 2 32767 (
  (* errorCode *) FCons (mkctx 0 32767 2 32767 0 0 0 0 None false) DNone (TPrim (PInt 2)) (
  (* errorMessage *) FCons (mkctx 0 32767 2 32767 0 32767 0 0 None false) DNone (TPrim PStr) (
  (* matchingAcls *) FCons (mkctx 0 32767 2 32767 0 0 0 0 None false) DNone (TArrS s_deleteacls_response_deleteaclsfilterresult_DeleteAclsMatchingAcl) (
  FNil)))).
(* messages/deleteacls/response.go *)
Definition s_deleteacls_Response : sch := Sch 2 32767 (
  (* throttleTimeMs *) FCons (mkctx 0 32767 2 32767 0 0 0 0 None false) DNone (TPrim (PInt 4)) (
  (* filterResults *) FCons (mkctx 0 32767 2 32767 0 0 0 0 None false) DNone (TArrS s_deleteacls_response_DeleteAclsFilterResult) (
  FNil))).
(* messages/deletegroups/request.go *)
Definition s_deletegroups_Request : sch := Sch 2 32767 (
  (* groupsNames *) FCons (mkctx 0 32767 2 32767 0 0 0 0 None false) DNone (TArr PStr) (
  FNil)).
(* messages/deletegroups/response/deletablegroupresult.go *)
Definition s_deletegroups_response_DeletableGroupResult : sch := Sch 2 32767 (
  (* groupId *) FCons (mkctx 0 32767 2 32767 0 0 0 0 None false) DNone (TPrim PStr) (
  (* errorCode *) FCons (mkctx 0 32767 2 32767 0 0 0 0 None false) DNone (TPrim (PInt 2)) (
  FNil))).
(* messages/deletegroups/response.go *)
Definition s_deletegroups_Response : sch := Sch 2 32767 (
  (* throttleTimeMs *) FCons (mkctx 0 32767 2 32767 0 0 0 0 None false) DNone (TPrim (PInt 4)) (
  (* results *) FCons (mkctx 0 32767 2 32767 0 0 0 0 None false) DNone (TArrS s_deletegroups_response_DeletableGroupResult) (
  FNil))).
(* messages/deleterecords/request/deleterecordstopic/deleterecordspartition.go *)
Definition s_deleterecords_request_deleterecordstopic_DeleteRecordsPartition : sch := Sch 2 32767 (
  (* partitionIndex *) FCons (mkctx 0 32767 2 32767 0 0 0 0 None false) DNone (TPrim (PInt 4)) (
  (* offset *) FCons (mkctx 0 32767 2 32767 0 0 0 0 None false) DNone (TPrim (PInt 8)) (
  FNil))).
(* messages/deleterecords/request/deleterecordstopic.go *)
Definition s_deleterecords_request_DeleteRecordsTopic : sch := Sch 2 32767 (
  (* name *) FCons (mkctx 0 32767 2 32767 0 0 0 0 None false) DNone (TPrim PStr) (
  (* partitions *) FCons (mkctx 0 32767 2 32767 0 0 0 0 None false) DNone (TArrS s_deleterecords_request_deleterecordstopic_DeleteRecordsPartition) (
  FNil))).
(* messages/deleterecords/request.go *)
Definition s_deleterecords_Request : sch := Sch 2 32767 (
  (* topics *) FCons (mkctx 0 32767 2 32767 0 0 0 0 None false) DNone (TArrS s_deleterecords_request_DeleteRecordsTopic) (
  (* timeoutMs *) FCons (mkctx 0 32767 2 32767 0 0 0 0 None false) DNone (TPrim (PInt 4)) (
  FNil))).
(* messages/deleterecords/response/deleterecordstopicresult/deleterecordspartitionresult.go *)
Definition s_deleterecords_response_deleterecordstopicresult_DeleteRecordsPartitionResult : sch := Sch 2 32767 (
  (* partitionIndex *) FCons (mkctx 0 32767 2 32767 0 0 0 0 None false) DNone (TPrim (PInt 4)) (
  (* lowWatermark *) FCons (mkctx 0 32767 2 32767 0 0 0 0 None false) DNone (TPrim (PInt 8)) (
  (* errorCode *) FCons (mkctx 0 32767 2 32767 0 0 0 0 None false) DNone (TPrim (PInt 2)) (
  FNil)))).
(* messages/deleterecords/response/deleterecordstopicresult.go *)
Definition s_deleterecords_response_DeleteRecordsTopicResult : sch := Sch 2 32767 (
  (* name *) FCons (mkctx 0 32767 2 32767 0 0 0 0 None false) DNone (TPrim PStr) (
  (* partitions *) FCons (mkctx 0 32767 2 32767 0 0 0 0 None false) DNone (TArrS s_deleterecords_response_deleterecordstopicresult_DeleteRecordsPartitionResult) (
  FNil))).
(* messages/deleterecords/response.go *)
Definition s_deleterecords_Response : sch := Sch 2 32767 (
  (* throttleTimeMs *) FCons (mkctx 0 32767 2 32767 0 0 0 0 None false) DNone (TPrim (PInt 4)) (
  (* topics *) FCons (mkctx 0 32767 2 32767 0 0 0 0 None false) DNone (TArrS s_deleterecords_response_DeleteRecordsTopicResult) (
  FNil))).
(* messages/deletetopics/request/deletetopicstate.go *)
Definition s_deletetopics_request_DeleteTopicState : sch := Sch 4 32767 (
  (* name *) FCons (mkctx 6 32767 4 32767 6 32767 0 0 None false) (DStr null_text) (TPrim PStr) (
  (* topicId *) FCons (mkctx 6 32767 4 32767 0 0 0 0 None false) DNone (TPrim PUuid) (
  FNil))).
(* messages/deletetopics/request.go *)
Definition s_deletetopics_Request : sch := Sch 4 32767 (
  (* topics *) FCons (mkctx 6 32767 4 32767 0 0 0 0 None false) DNone (TArrS s_deletetopics_request_DeleteTopicState) (
  (* topicNames *) FCons (mkctx 0 5 4 32767 0 0 0 0 None false) DNone (TArr PStr) (
  (* timeoutMs *) FCons (mkctx 0 32767 4 32767 0 0 0 0 None false) DNone (TPrim (PInt 4)) (
  FNil)))).
(* messages/deletetopics/response/deletabletopicresult.go *)
Definition s_deletetopics_response_DeletableTopicResult : sch := Sch 4 32767 (
  (* name *) FCons (mkctx 0 32767 4 32767 6 32767 0 0 None false) DNone (TPrim PStr) (
  (* topicId *) FCons (mkctx 6 32767 4 32767 0 0 0 0 None true) DNone (TPrim PUuid) (
  (* errorCode *) FCons (mkctx 0 32767 4 32767 0 0 0 0 None false) DNone (TPrim (PInt 2)) (
  (* errorMessage *) FCons (mkctx 5 32767 4 32767 5 32767 0 0 None true) (DStr null_text) (TPrim PStr) (
  FNil))))).
(* messages/deletetopics/response.go *)
Definition s_deletetopics_Response : sch := Sch 4 32767 (
  (* throttleTimeMs *) FCons (mkctx 1 32767 4 32767 0 0 0 0 None true) DNone (TPrim (PInt 4)) (
  (* responses *) FCons (mkctx 0 32767 4 32767 0 0 0 0 None false) DNone (TArrS s_deletetopics_response_DeletableTopicResult) (
  FNil))).
(* messages/describeacls/request.go *)
Definition s_describeacls_Request : sch := Sch 2 32767 (
  (* resourceTypeFilter *) FCons (mkctx 0 32767 2 32767 0 0 0 0 None false) DNone (TPrim (PInt 1)) (
  (* resourceNameFilter *) FCons (mkctx 0 32767 2 32767 0 32767 0 0 None false) DNone (TPrim PStr) (
  (* patternTypeFilter *) FCons (mkctx 1 32767 2 32767 0 0 0 0 None false) (DInt 3) (TPrim (PInt 1)) (
  (* principalFilter *) FCons (mkctx 0 32767 2 32767 0 32767 0 0 None false) DNone (TPrim PStr) (
  (* hostFilter *) FCons (mkctx 0 32767 2 32767 0 32767 0 0 None false) DNone (TPrim PStr) (
  (* operation *) FCons (mkctx 0 32767 2 32767 0 0 0 0 None false) DNone (TPrim (PInt 1)) (
  (* permissionType *) FCons (mkctx 0 32767 2 32767 0 0 0 0 None false) DNone (TPrim (PInt 1)) (
  FNil)))))))).
(* messages/describeacls/response/describeaclsresource/acldescription.go *)
Definition s_describeacls_response_describeaclsresource_AclDescription : sch := Sch 2 32767 (
  (* principal *) FCons (mkctx 0 32767 2 32767 0 0 0 0 None false) DNone (TPrim PStr) (
  (* host *) FCons (mkctx 0 32767 2 32767 0 0 0 0 None false) DNone (TPrim PStr) (
  (* operation *) FCons (mkctx 0 32767 2 32767 0 0 0 0 None false) DNone (TPrim (PInt 1)) (
  (* permissionType *) FCons (mkctx 0 32767 2 32767 0 0 0 0 None false) DNone (TPrim (PInt 1)) (
  FNil))))).
(* messages/describeacls/response/describeaclsresource.go *)
Definition s_describeacls_response_DescribeAclsResource : sch := Sch 2 32767 (
  (* resourceType *) FCons (mkctx 0 32767 2 32767 0 0 0 0 None false) DNone (TPrim (PInt 1)) (
  (* resourceName *) FCons (mkctx 0 32767 2 32767 0 0 0 0 None false) DNone (TPrim PStr) (
  (* patternType *) FCons (mkctx 1 32767 2 32767 0 0 0 0 None false) (DInt 3) (TPrim (PInt 1)) (
  (* acls *) FCons (mkctx 0 32767 2 32767 0 0 0 0 None false) DNone (TArrS s_describeacls_response_describeaclsresource_AclDescription) (
  FNil))))).
(* messages/describeacls/response.go *)
Definition s_describeacls_Response : sch := Sch 2 32767 (
  (* throttleTimeMs *) FCons (mkctx 0 32767 2 32767 0 0 0 0 None false) DNone (TPrim (PInt 4)) (
  (* errorCode *) FCons (mkctx 0 32767 2 32767 0 0 0 0 None false) DNone (TPrim (PInt 2)) (
  (* errorMessage *) FCons (mkctx 0 32767 2 32767 0 32767 0 0 None false) DNone (TPrim PStr) (
  (* resources *) FCons (mkctx 0 32767 2 32767 0 0 0 0 None false) DNone (TArrS s_describeacls_response_DescribeAclsResource) (
  FNil))))).
(* messages/describeclientquotas/request/componentdata.go *)
Definition s_describeclientquotas_request_ComponentData : sch := Sch 1 32767 (
  (* entityType *) FCons (mkctx 0 32767 1 32767 0 0 0 0 None false) DNone (TPrim PStr) (
  (* matchType *) FCons (mkctx 0 32767 1 32767 0 0 0 0 None false) DNone (TPrim (PInt 1)) (
  (* match *) FCons (mkctx 0 32767 1 32767 0 32767 0 0 None false) DNone (TPrim PStr) (
  FNil)))).
(* messages/describeclientquotas/request.go *)
Definition s_describeclientquotas_Request : sch := Sch 1 32767 (
  (* components *) FCons (mkctx 0 32767 1 32767 0 0 0 0 None false) DNone (TArrS s_describeclientquotas_request_ComponentData) (
  (* strict *) FCons (mkctx 0 32767 1 32767 0 0 0 0 None false) DNone (TPrim PBool) (
  FNil))).
(* messages/describeclientquotas/response/entrydata/entitydata.go *)
Definition s_describeclientquotas_response_entrydata_EntityData : sch := Sch 1 32767 (
  (* entityType *) FCons (mkctx 0 32767 1 32767 0 32767 0 0 None false) DNone (TPrim PStr) (
  (* entityName *) FCons (mkctx 0 32767 1 32767 0 32767 0 0 None false) DNone (TPrim PStr) (
  FNil))).
(* messages/describeclientquotas/response/entrydata/valuedata.go *)
Definition s_describeclientquotas_response_entrydata_ValueData : sch := Sch 1 32767 (
  (* key *) FCons (mkctx 0 32767 1 32767 0 32767 0 0 None false) DNone (TPrim PStr) (
  (* value *) FCons (mkctx 0 32767 1 32767 0 32767 0 0 None false) DNone (TPrim PFloat) (
  FNil))).
(* messages/describeclientquotas/response/entrydata.go *)
Definition s_describeclientquotas_response_EntryData : sch := Sch 1 32767 (
  (* entity *) FCons (mkctx 0 32767 1 32767 0 32767 0 0 None false) DNone (TArrS s_describeclientquotas_response_entrydata_EntityData) (
  (* values *) FCons (mkctx 0 32767 1 32767 0 32767 0 0 None false) DNone (TArrS s_describeclientquotas_response_entrydata_ValueData) (
  FNil))).
(* messages/describeclientquotas/response.go *)
Definition s_describeclientquotas_Response : sch := Sch 1 32767 (
  (* throttleTimeMs *) FCons (mkctx 0 32767 1 32767 0 0 0 0 None false) DNone (TPrim (PInt 4)) (
  (* errorCode *) FCons (mkctx 0 32767 1 32767 0 0 0 0 None false) DNone (TPrim (PInt 2)) (
  (* errorMessage *) FCons (mkctx 0 32767 1 32767 0 32767 0 0 None false) DNone (TPrim PStr) (
  (* entries *) FCons (mkctx 0 32767 1 32767 0 32767 0 0 None false) DNone (TArrS s_describeclientquotas_response_EntryData) (
  FNil))))).
(* messages/describecluster/request.go *)
Definition s_describecluster_Request : sch := Sch 0 32767 (
  (* includeClusterAuthorizedOperations *) FCons (mkctx 0 32767 0 32767 0 0 0 0 None false) DNone (TPrim PBool) (
  FNil)).
(* messages/describecluster/response/describeclusterbroker.go *)
Definition s_describecluster_response_DescribeClusterBroker : sch := Sch 0 32767 (
  (* brokerId *) FCons (mkctx 0 32767 0 32767 0 0 0 0 None false) DNone (TPrim (PInt 4)) (
  (* host *) FCons (mkctx 0 32767 0 32767 0 0 0 0 None false) DNone (TPrim PStr) (
  (* port *) FCons (mkctx 0 32767 0 32767 0 0 0 0 None false) DNone (TPrim (PInt 4)) (
  (* rack *) FCons (mkctx 0 32767 0 32767 0 32767 0 0 None false) (DStr null_text) (TPrim PStr) (
  FNil))))).
(* messages/describecluster/response.go *)
Definition s_describecluster_Response : sch := Sch 0 32767 (
  (* throttleTimeMs *) FCons (mkctx 0 32767 0 32767 0 0 0 0 None false) DNone (TPrim (PInt 4)) (
  (* errorCode *) FCons (mkctx 0 32767 0 32767 0 0 0 0 None false) DNone (TPrim (PInt 2)) (
  (* errorMessage *) FCons (mkctx 0 32767 0 32767 0 32767 0 0 None false) (DStr null_text) (TPrim PStr) (
  (* clusterId *) FCons (mkctx 0 32767 0 32767 0 0 0 0 None false) DNone (TPrim PStr) (
  (* controllerId *) FCons (mkctx 0 32767 0 32767 0 0 0 0 None false) (DInt (-1)) (TPrim (PInt 4)) (
  (* brokers *) FCons (mkctx 0 32767 0 32767 0 0 0 0 None false) DNone (TArrS s_describecluster_response_DescribeClusterBroker) (
  (* clusterAuthorizedOperations *) FCons (mkctx 0 32767 0 32767 0 0 0 0 None false) (DInt (-2147483648)) (TPrim (PInt 4)) (
  FNil)))))))).
(* messages/describeconfigs/request/describeconfigsresource.go *)
Definition s_describeconfigs_request_DescribeConfigsResource : sch := Sch 4 32767 (
  (* resourceType *) FCons (mkctx 0 32767 4 32767 0 0 0 0 None false) DNone (TPrim (PInt 1)) (
  (* resourceName *) FCons (mkctx 0 32767 4 32767 0 0 0 0 None false) DNone (TPrim PStr) (
  (* configurationKeys *) FCons (mkctx 0 32767 4 32767 0 32767 0 0 None false) DNone (TArr PStr) (
  FNil)))).
(* messages/describeconfigs/request.go *)
Definition s_describeconfigs_Request : sch := Sch 4 32767 (
  (* resources *) FCons (mkctx 0 32767 4 32767 0 0 0 0 None false) DNone (TArrS s_describeconfigs_request_DescribeConfigsResource) (
  (* includeSynonyms *) FCons (mkctx 1 32767 4 32767 0 0 0 0 None false) DNone (TPrim PBool) (
  (* includeDocumentation *) FCons (mkctx 3 32767 4 32767 0 0 0 0 None false) DNone (TPrim PBool) (
  FNil)))).
(* messages/describeconfigs/response/describeconfigsresult/describeconfigsresourceresult/describeconfigssynonym.go *)
Definition s_describeconfigs_response_describeconfigsresult_describeconfigsresourceresult_DescribeConfigsSynonym : sch := Sch 4 32767 (
  (* name *) FCons (mkctx 1 32767 4 32767 0 0 0 0 None false) DNone (TPrim PStr) (
  (* value *) FCons (mkctx 1 32767 4 32767 0 32767 0 0 None false) DNone (TPrim PStr) (
  (* source *) FCons (mkctx 1 32767 4 32767 0 0 0 0 None false) DNone (TPrim (PInt 1)) (
  FNil)))).
(* messages/describeconfigs/response/describeconfigsresult/describeconfigsresourceresult.go *)
Definition s_describeconfigs_response_describeconfigsresult_DescribeConfigsResourceResult : sch := Sch 4 32767 (
  (* name *) FCons (mkctx 0 32767 4 32767 0 0 0 0 None false) DNone (TPrim PStr) (
  (* value *) FCons (mkctx 0 32767 4 32767 0 32767 0 0 None false) DNone (TPrim PStr) (
  (* readOnly *) FCons (mkctx 0 32767 4 32767 0 0 0 0 None false) DNone (TPrim PBool) (
  (* isDefault *) FCons (mkctx 0 0 4 32767 0 0 0 0 None false) DNone (TPrim PBool) (
  (* configSource *) FCons (mkctx 1 32767 4 32767 0 0 0 0 None true) (DInt (-1)) (TPrim (PInt 1)) (
  (* isSensitive *) FCons (mkctx 0 32767 4 32767 0 0 0 0 None false) DNone (TPrim PBool) (
  (* synonyms *) FCons (mkctx 1 32767 4 32767 0 0 0 0 None true) DNone (TArrS s_describeconfigs_response_describeconfigsresult_describeconfigsresourceresult_DescribeConfigsSynonym) (
  (* configType *) FCons (mkctx 3 32767 4 32767 0 0 0 0 None true) DNone (TPrim (PInt 1)) (
  (* documentation *) FCons (mkctx 3 32767 4 32767 0 32767 0 0 None true) DNone (TPrim PStr) (
  FNil)))))))))).
(* messages/describeconfigs/response/describeconfigsresult.go *)
Definition s_describeconfigs_response_DescribeConfigsResult : sch := Sch 4 32767 (
  (* errorCode *) FCons (mkctx 0 32767 4 32767 0 0 0 0 None false) DNone (TPrim (PInt 2)) (
  (* errorMessage *) FCons (mkctx 0 32767 4 32767 0 32767 0 0 None false) DNone (TPrim PStr) (
  (* resourceType *) FCons (mkctx 0 32767 4 32767 0 0 0 0 None false) DNone (TPrim (PInt 1)) (
  (* resourceName *) FCons (mkctx 0 32767 4 32767 0 0 0 0 None false) DNone (TPrim PStr) (
  (* configs *) FCons (mkctx 0 32767 4 32767 0 0 0 0 None false) DNone (TArrS s_describeconfigs_response_describeconfigsresult_DescribeConfigsResourceResult) (
  FNil)))))).
(* messages/describeconfigs/response.go *)
Definition s_describeconfigs_Response : sch := Sch 4 32767 (
  (* throttleTimeMs *) FCons (mkctx 0 32767 4 32767 0 0 0 0 None false) DNone (TPrim (PInt 4)) (
  (* results *) FCons (mkctx 0 32767 4 32767 0 0 0 0 None false) DNone (TArrS s_describeconfigs_response_DescribeConfigsResult) (
  FNil))).
(* messages/describedelegationtoken/request/describedelegationtokenowner.go *)
Definition s_describedelegationtoken_request_DescribeDelegationTokenOwner : sch := Sch 2 32767 (
  (* principalType *) FCons (mkctx 0 32767 2 32767 0 32767 0 0 None false) DNone (TPrim PStr) (
  (* principalName *) FCons (mkctx 0 32767 2 32767 0 32767 0 0 None false) DNone (TPrim PStr) (
  FNil))).
(* messages/describedelegationtoken/request.go *)
Definition s_describedelegationtoken_Request : sch := Sch 2 32767 (
  (* owners *) FCons (mkctx 0 32767 2 32767 0 32767 0 0 None false) DNone (TArrS s_describedelegationtoken_request_DescribeDelegationTokenOwner) (
  FNil)).
(* messages/describedelegationtoken/response/describeddelegationtoken/describeddelegationtokenrenewer.go *)
Definition s_describedelegationtoken_response_describeddelegationtoken_DescribedDelegationTokenRenewer : sch := Sch 2 32767 (
  (* principalType *) FCons (mkctx 0 32767 2 32767 0 0 0 0 None false) DNone (TPrim PStr) (
  (* principalName *) FCons (mkctx 0 32767 2 32767 0 0 0 0 None false) DNone (TPrim PStr) (
  FNil))).
(* messages/describedelegationtoken/response/describeddelegationtoken.go *)
Definition s_describedelegationtoken_response_DescribedDelegationToken : sch := Sch 2 32767 (
  (* principalType *) FCons (mkctx 0 32767 2 32767 0 0 0 0 None false) DNone (TPrim PStr) (
  (* principalName *) FCons (mkctx 0 32767 2 32767 0 0 0 0 None false) DNone (TPrim PStr) (
  (* tokenRequesterPrincipalType *) FCons (mkctx 3 32767 2 32767 0 0 0 0 None false) DNone (TPrim PStr) (
  (* tokenRequesterPrincipalName *) FCons (mkctx 3 32767 2 32767 0 0 0 0 None false) DNone (TPrim PStr) (
  (* issueTimestamp *) FCons (mkctx 0 32767 2 32767 0 0 0 0 None false) DNone (TPrim (PInt 8)) (
  (* expiryTimestamp *) FCons (mkctx 0 32767 2 32767 0 0 0 0 None false) DNone (TPrim (PInt 8)) (
  (* maxTimestamp *) FCons (mkctx 0 32767 2 32767 0 0 0 0 None false) DNone (TPrim (PInt 8)) (
  (* tokenId *) FCons (mkctx 0 32767 2 32767 0 0 0 0 None false) DNone (TPrim PStr) (
  (* hmac *) FCons (mkctx 0 32767 2 32767 0 0 0 0 None false) DNone (TPrim PBytes) (
  (* renewers *) FCons (mkctx 0 32767 2 32767 0 0 0 0 None false) DNone (TArrS s_describedelegationtoken_response_describeddelegationtoken_DescribedDelegationTokenRenewer) (
  FNil))))))))))).
(* messages/describedelegationtoken/response.go *)
Definition s_describedelegationtoken_Response : sch := Sch 2 32767 (
  (* errorCode *) FCons (mkctx 0 32767 2 32767 0 0 0 0 None false) DNone (TPrim (PInt 2)) (
  (* tokens *) FCons (mkctx 0 32767 2 32767 0 0 0 0 None false) DNone (TArrS s_describedelegationtoken_response_DescribedDelegationToken) (
  (* throttleTimeMs *) FCons (mkctx 0 32767 2 32767 0 0 0 0 None false) DNone (TPrim (PInt 4)) (
  FNil)))).
(* messages/describegroups/request.go *)
Definition s_describegroups_Request : sch := Sch 5 32767 (
  (* groups *) FCons (mkctx 0 32767 5 32767 0 0 0 0 None false) DNone (TArr PStr) (
  (* includeAuthorizedOperations *) FCons (mkctx 3 32767 5 32767 0 0 0 0 None false) DNone (TPrim PBool) (
  FNil))).
(* messages/describegroups/response/describedgroup/describedgroupmember.go *)
Definition s_describegroups_response_describedgroup_DescribedGroupMember : sch := Sch 5 32767 (
  (* memberId *) FCons (mkctx 0 32767 5 32767 0 0 0 0 None false) DNone (TPrim PStr) (
  (* groupInstanceId *) FCons (mkctx 4 32767 5 32767 4 32767 0 0 None true) (DStr null_text) (TPrim PStr) (
  (* clientId *) FCons (mkctx 0 32767 5 32767 0 0 0 0 None false) DNone (TPrim PStr) (
  (* clientHost *) FCons (mkctx 0 32767 5 32767 0 0 0 0 None false) DNone (TPrim PStr) (
  (* memberMetadata *) FCons (mkctx 0 32767 5 32767 0 0 0 0 None false) DNone (TPrim PBytes) (
  (* memberAssignment *) FCons (mkctx 0 32767 5 32767 0 0 0 0 None false) DNone (TPrim PBytes) (
  FNil))))))).
(* messages/describegroups/response/describedgroup.go *)
Definition s_describegroups_response_DescribedGroup : sch := Sch 5 32767 (
  (* errorCode *) FCons (mkctx 0 32767 5 32767 0 0 0 0 None false) DNone (TPrim (PInt 2)) (
  (* groupId *) FCons (mkctx 0 32767 5 32767 0 0 0 0 None false) DNone (TPrim PStr) (
  (* groupState *) FCons (mkctx 0 32767 5 32767 0 0 0 0 None false) DNone (TPrim PStr) (
  (* protocolType *) FCons (mkctx 0 32767 5 32767 0 0 0 0 None false) DNone (TPrim PStr) (
  (* protocolData *) FCons (mkctx 0 32767 5 32767 0 0 0 0 None false) DNone (TPrim PStr) (
  (* members *) FCons (mkctx 0 32767 5 32767 0 0 0 0 None false) DNone (TArrS s_describegroups_response_describedgroup_DescribedGroupMember) (
  (* authorizedOperations *) FCons (mkctx 3 32767 5 32767 0 0 0 0 None false) (DInt (-2147483648)) (TPrim (PInt 4)) (
  FNil)))))))).
(* messages/describegroups/response.go *)
Definition s_describegroups_Response : sch := Sch 5 32767 (
  (* throttleTimeMs *) FCons (mkctx 1 32767 5 32767 0 0 0 0 None true) DNone (TPrim (PInt 4)) (
  (* groups *) FCons (mkctx 0 32767 5 32767 0 0 0 0 None false) DNone (TArrS s_describegroups_response_DescribedGroup) (
  FNil))).
(* messages/describelogdirs/request/describablelogdirtopic.go *)
Definition s_describelogdirs_request_DescribableLogDirTopic : sch := Sch 2 32767 (
  (* topic *) FCons (mkctx 0 32767 2 32767 0 32767 0 0 None false) DNone (TPrim PStr) (
  (* partitions *) FCons (mkctx 0 32767 2 32767 0 32767 0 0 None false) DNone (TArr (PInt 4)) (
  FNil))).
(* messages/describelogdirs/request.go *)
Definition s_describelogdirs_Request : sch := Sch 2 32767 (
  (* topics *) FCons (mkctx 0 32767 2 32767 0 32767 0 0 None false) DNone (TArrS s_describelogdirs_request_DescribableLogDirTopic) (
  FNil)).
(* messages/describelogdirs/response/describelogdirsresult/describelogdirstopic/describelogdirspartition.go *)
Definition s_describelogdirs_response_describelogdirsresult_describelogdirstopic_DescribeLogDirsPartition : sch := Sch 2 32767 (
  (* partitionIndex *) FCons (mkctx 0 32767 2 32767 0 0 0 0 None false) DNone (TPrim (PInt 4)) (
  (* partitionSize *) FCons (mkctx 0 32767 2 32767 0 0 0 0 None false) DNone (TPrim (PInt 8)) (
  (* offsetLag *) FCons (mkctx 0 32767 2 32767 0 0 0 0 None false) DNone (TPrim (PInt 8)) (
  (* isFutureKey *) FCons (mkctx 0 32767 2 32767 0 0 0 0 None false) DNone (TPrim PBool) (
  FNil))))).
(* messages/describelogdirs/response/describelogdirsresult/describelogdirstopic.go *)
Definition s_describelogdirs_response_describelogdirsresult_DescribeLogDirsTopic : sch := Sch 2 32767 (
  (* name *) FCons (mkctx 0 32767 2 32767 0 0 0 0 None false) DNone (TPrim PStr) (
  (* partitions *) FCons (mkctx 0 32767 2 32767 0 0 0 0 None false) DNone (TArrS s_describelogdirs_response_describelogdirsresult_describelogdirstopic_DescribeLogDirsPartition) (
  FNil))).
(* messages/describelogdirs/response/describelogdirsresult.go *)
Definition s_describelogdirs_response_DescribeLogDirsResult : sch := Sch 2 32767 (
  (* errorCode *) FCons (mkctx 0 32767 2 32767 0 0 0 0 None false) DNone (TPrim (PInt 2)) (
  (* logDir *) FCons (mkctx 0 32767 2 32767 0 0 0 0 None false) DNone (TPrim PStr) (
  (* topics *) FCons (mkctx 0 32767 2 32767 0 0 0 0 None false) DNone (TArrS s_describelogdirs_response_describelogdirsresult_DescribeLogDirsTopic) (
  (* totalBytes *) FCons (mkctx 4 32767 2 32767 0 0 0 0 None true) (DInt (-1)) (TPrim (PInt 8)) (
  (* usableBytes *) FCons (mkctx 4 32767 2 32767 0 0 0 0 None true) (DInt (-1)) (TPrim (PInt 8)) (
  FNil)))))).
(* messages/describelogdirs/response.go *)
Definition s_describelogdirs_Response : sch := Sch 2 32767 (
  (* throttleTimeMs *) FCons (mkctx 0 32767 2 32767 0 0 0 0 None false) DNone (TPrim (PInt 4)) (
  (* errorCode *) FCons (mkctx 3 32767 2 32767 0 0 0 0 None true) DNone (TPrim (PInt 2)) (
  (* results *) FCons (mkctx 0 32767 2 32767 0 0 0 0 None false) DNone (TArrS s_describelogdirs_response_DescribeLogDirsResult) (
  FNil)))).
(* messages/describeproducers/request/topicrequest.go *)
Definition s_describeproducers_request_TopicRequest : sch := Sch 0 32767 (
  (* name *) FCons (mkctx 0 32767 0 32767 0 0 0 0 None false) DNone (TPrim PStr) (
  (* partitionIndexes *) FCons (mkctx 0 32767 0 32767 0 0 0 0 None false) DNone (TArr (PInt 4)) (
  FNil))).
(* messages/describeproducers/request.go *)
Definition s_describeproducers_Request : sch := Sch 0 32767 (
  (* topics *) FCons (mkctx 0 32767 0 32767 0 0 0 0 None false) DNone (TArrS s_describeproducers_request_TopicRequest) (
  FNil)).
(* messages/describeproducers/response/topicresponse/partitionresponse/producerstate.go *)
Definition s_describeproducers_response_topicresponse_partitionresponse_ProducerState : sch := Sch 0 32767 (
  (* producerId *) FCons (mkctx 0 32767 0 32767 0 0 0 0 None false) DNone (TPrim (PInt 8)) (
  (* producerEpoch *) FCons (mkctx 0 32767 0 32767 0 0 0 0 None false) DNone (TPrim (PInt 4)) (
  (* lastSequence *) FCons (mkctx 0 32767 0 32767 0 0 0 0 None false) (DInt (-1)) (TPrim (PInt 4)) (
  (* lastTimestamp *) FCons (mkctx 0 32767 0 32767 0 0 0 0 None false) (DInt (-1)) (TPrim (PInt 8)) (
  (* coordinatorEpoch *) FCons (mkctx 0 32767 0 32767 0 0 0 0 None false) DNone (TPrim (PInt 4)) (
  (* currentTxnStartOffset *) FCons (mkctx 0 32767 0 32767 0 0 0 0 None false) (DInt (-1)) (TPrim (PInt 8)) (
  FNil))))))).
(* messages/describeproducers/response/topicresponse/partitionresponse.go *)
Definition s_describeproducers_response_topicresponse_PartitionResponse : sch := Sch 0 32767 (
  (* partitionIndex *) FCons (mkctx 0 32767 0 32767 0 0 0 0 None false) DNone (TPrim (PInt 4)) (
  (* errorCode *) FCons (mkctx 0 32767 0 32767 0 0 0 0 None false) DNone (TPrim (PInt 2)) (
  (* errorMessage *) FCons (mkctx 0 32767 0 32767 0 32767 0 0 None false) (DStr null_text) (TPrim PStr) (
  (* activeProducers *) FCons (mkctx 0 32767 0 32767 0 0 0 0 None false) DNone (TArrS s_describeproducers_response_topicresponse_partitionresponse_ProducerState) (
  FNil))))).
(* messages/describeproducers/response/topicresponse.go *)
Definition s_describeproducers_response_TopicResponse : sch := Sch 0 32767 (
  (* name *) FCons (mkctx 0 32767 0 32767 0 0 0 0 None false) DNone (TPrim PStr) (
  (* partitions *) FCons (mkctx 0 32767 0 32767 0 0 0 0 None false) DNone (TArrS s_describeproducers_response_topicresponse_PartitionResponse) (
  FNil))).
(* messages/describeproducers/response.go *)
Definition s_describeproducers_Response : sch := Sch 0 32767 (
  (* throttleTimeMs *) FCons (mkctx 0 32767 0 32767 0 0 0 0 None false) DNone (TPrim (PInt 4)) (
  (* topics *) FCons (mkctx 0 32767 0 32767 0 0 0 0 None false) DNone (TArrS s_describeproducers_response_TopicResponse) (
  FNil))).
(* messages/describequorum/request/topicdata/partitiondata.go *)
Definition s_describequorum_request_topicdata_PartitionData : sch := Sch 0 32767 (
  (* partitionIndex *) FCons (mkctx 0 32767 0 32767 0 0 0 0 None false) DNone (TPrim (PInt 4)) (
  FNil)).
(* messages/describequorum/request/topicdata.go *)
Definition s_describequorum_request_TopicData : sch := Sch 0 32767 (
  (* topicName *) FCons (mkctx 0 32767 0 32767 0 0 0 0 None false) DNone (TPrim PStr) (
  (* partitions *) FCons (mkctx 0 32767 0 32767 0 0 0 0 None false) DNone (TArrS s_describequorum_request_topicdata_PartitionData) (
  FNil))).
(* messages/describequorum/request.go *)
Definition s_describequorum_Request : sch := Sch 0 32767 (
  (* topics *) FCons (mkctx 0 32767 0 32767 0 0 0 0 None false) DNone (TArrS s_describequorum_request_TopicData) (
  FNil)).
(* messages/describequorum/common/replicastate.go *)
Definition s_describequorum_common_ReplicaState : sch := Sch 0 32767 (
  (* replicaId *) FCons (mkctx 0 32767 0 32767 0 0 0 0 None false) DNone (TPrim (PInt 4)) (
  (* logEndOffset *) FCons (mkctx 0 32767 0 32767 0 0 0 0 None false) DNone (TPrim (PInt 8)) (
  (* lastFetchTimestamp *) FCons (mkctx 1 32767 0 32767 0 0 0 0 None true) (DInt (-1)) (TPrim (PInt 8)) (
  (* lastCaughtUpTimestamp *) FCons (mkctx 1 32767 0 32767 0 0 0 0 None true) (DInt (-1)) (TPrim (PInt 8)) (
  FNil))))).
(* messages/describequorum/response/topicdata/partitiondata.go *)
Definition s_describequorum_response_topicdata_PartitionData : sch := Sch 0 32767 (
  (* partitionIndex *) FCons (mkctx 0 32767 0 32767 0 0 0 0 None false) DNone (TPrim (PInt 4)) (
  (* errorCode *) FCons (mkctx 0 32767 0 32767 0 0 0 0 None false) DNone (TPrim (PInt 2)) (
  (* leaderId *) FCons (mkctx 0 32767 0 32767 0 0 0 0 None false) DNone (TPrim (PInt 4)) (
  (* leaderEpoch *) FCons (mkctx 0 32767 0 32767 0 0 0 0 None false) DNone (TPrim (PInt 4)) (
  (* highWatermark *) FCons (mkctx 0 32767 0 32767 0 0 0 0 None false) DNone (TPrim (PInt 8)) (
  (* currentVoters *) FCons (mkctx 0 32767 0 32767 0 0 0 0 None false) DNone (TArrS s_describequorum_common_ReplicaState) (
  (* observers *) FCons (mkctx 0 32767 0 32767 0 0 0 0 None false) DNone (TArrS s_describequorum_common_ReplicaState) (
  FNil)))))))).
(* messages/describequorum/response/topicdata.go *)
Definition s_describequorum_response_TopicData : sch := Sch 0 32767 (
  (* topicName *) FCons (mkctx 0 32767 0 32767 0 0 0 0 None false) DNone (TPrim PStr) (
  (* partitions *) FCons (mkctx 0 32767 0 32767 0 0 0 0 None false) DNone (TArrS s_describequorum_response_topicdata_PartitionData) (
  FNil))).
(* messages/describequorum/response.go *)
Definition s_describequorum_Response : sch := Sch 0 32767 (
  (* errorCode *) FCons (mkctx 0 32767 0 32767 0 0 0 0 None false) DNone (TPrim (PInt 2)) (
  (* topics *) FCons (mkctx 0 32767 0 32767 0 0 0 0 None false) DNone (TArrS s_describequorum_response_TopicData) (
  FNil))).
(* messages/describetransactions/request.go *)
Definition s_describetransactions_Request : sch := Sch 0 32767 (
  (* transactionalIds *) FCons (mkctx 0 32767 0 32767 0 0 0 0 None false) DNone (TArr PStr) (
  FNil)).
(* messages/describetransactions/response/transactionstate/topicdata.go *)
Definition s_describetransactions_response_transactionstate_TopicData : sch := Sch 0 32767 (
  (* topic *) FCons (mkctx 0 32767 0 32767 0 0 0 0 None false) DNone (TPrim PStr) (
  (* partitions *) FCons (mkctx 0 32767 0 32767 0 0 0 0 None false) DNone (TArr (PInt 4)) (
  FNil))).
(* messages/describetransactions/response/transactionstate.go *)
Definition s_describetransactions_response_TransactionState : sch := Sch 0 32767 (
  (* errorCode *) FCons (mkctx 0 32767 0 32767 0 0 0 0 None false) DNone (TPrim (PInt 2)) (
  (* transactionalId *) FCons (mkctx 0 32767 0 32767 0 0 0 0 None false) DNone (TPrim PStr) (
  (* transactionState *) FCons (mkctx 0 32767 0 32767 0 0 0 0 None false) DNone (TPrim PStr) (
  (* transactionTimeoutMs *) FCons (mkctx 0 32767 0 32767 0 0 0 0 None false) DNone (TPrim (PInt 4)) (
  (* transactionStartTimeMs *) FCons (mkctx 0 32767 0 32767 0 0 0 0 None false) DNone (TPrim (PInt 8)) (
  (* producerId *) FCons (mkctx 0 32767 0 32767 0 0 0 0 None false) DNone (TPrim (PInt 8)) (
  (* producerEpoch *) FCons (mkctx 0 32767 0 32767 0 0 0 0 None false) DNone (TPrim (PInt 2)) (
  (* topics *) FCons (mkctx 0 32767 0 32767 0 0 0 0 None false) DNone (TArrS s_describetransactions_response_transactionstate_TopicData) (
  FNil))))))))).
(* messages/describetransactions/response.go *)
Definition s_describetransactions_Response : sch := Sch 0 32767 (
  (* throttleTimeMs *) FCons (mkctx 0 32767 0 32767 0 0 0 0 None false) DNone (TPrim (PInt 4)) (
  (* transactionStates *) FCons (mkctx 0 32767 0 32767 0 0 0 0 None false) DNone (TArrS s_describetransactions_response_TransactionState) (
  FNil))).
(* messages/describeuserscramcredentials/request/username.go *)
Definition s_describeuserscramcredentials_request_UserName : sch := Sch 0 32767 (
  (* name *) FCons (mkctx 0 32767 0 32767 0 32767 0 0 None false) DNone (TPrim PStr) (
  FNil)).
(* messages/describeuserscramcredentials/request.go *)
Definition s_describeuserscramcredentials_Request : sch := Sch 0 32767 (
  (* users *) FCons (mkctx 0 32767 0 32767 0 32767 0 0 None false) DNone (TArrS s_describeuserscramcredentials_request_UserName) (
  FNil)).
(* messages/describeuserscramcredentials/response/describeuserscramcredentialsresult/credentialinfo.go *)
Definition s_describeuserscramcredentials_response_describeuserscramcredentialsresult_CredentialInfo : sch := Sch 0 32767 (
  (* mechanism *) FCons (mkctx 0 32767 0 32767 0 0 0 0 None false) DNone (TPrim (PInt 1)) (
  (* iterations *) FCons (mkctx 0 32767 0 32767 0 0 0 0 None false) DNone (TPrim (PInt 4)) (
  FNil))).
(* messages/describeuserscramcredentials/response/describeuserscramcredentialsresult.go *)
Definition s_describeuserscramcredentials_response_DescribeUserScramCredentialsResult : sch := Sch 0 32767 (
  (* user *) FCons (mkctx 0 32767 0 32767 0 0 0 0 None false) DNone (TPrim PStr) (
  (* errorCode *) FCons (mkctx 0 32767 0 32767 0 0 0 0 None false) DNone (TPrim (PInt 2)) (
  (* errorMessage *) FCons (mkctx 0 32767 0 32767 0 32767 0 0 None false) DNone (TPrim PStr) (
  (* credentialInfos *) FCons (mkctx 0 32767 0 32767 0 0 0 0 None false) DNone (TArrS s_describeuserscramcredentials_response_describeuserscramcredentialsresult_CredentialInfo) (
  FNil))))).
(* messages/describeuserscramcredentials/response.go *)
Definition s_describeuserscramcredentials_Response : sch := Sch 0 32767 (
  (* throttleTimeMs *) FCons (mkctx 0 32767 0 32767 0 0 0 0 None false) DNone (TPrim (PInt 4)) (
  (* errorCode *) FCons (mkctx 0 32767 0 32767 0 0 0 0 None false) DNone (TPrim (PInt 2)) (
  (* errorMessage *) FCons (mkctx 0 32767 0 32767 0 32767 0 0 None false) DNone (TPrim PStr) (
  (* results *) FCons (mkctx 0 32767 0 32767 0 0 0 0 None false) DNone (TArrS s_describeuserscramcredentials_response_DescribeUserScramCredentialsResult) (
  FNil))))).
(* messages/electleaders/request/topicpartitions.go *)
Definition s_electleaders_request_TopicPartitions : sch := Sch 2 32767 (
  (* topic *) FCons (mkctx 0 32767 2 32767 0 32767 0 0 None false) DNone (TPrim PStr) (
  (* partitions *) FCons (mkctx 0 32767 2 32767 0 32767 0 0 None false) DNone (TArr (PInt 4)) (
  FNil))).
(* messages/electleaders/request.go *)
Definition s_electleaders_Request : sch := Sch 2 32767 (
  (* electionType *) FCons (mkctx 1 32767 2 32767 0 0 0 0 None false) DNone (TPrim (PInt 1)) (
  (* topicPartitions *) FCons (mkctx 0 32767 2 32767 0 32767 0 0 None false) DNone (TArrS s_electleaders_request_TopicPartitions) (
  (* timeoutMs *) FCons (mkctx 0 32767 2 32767 0 0 0 0 None false) (DInt 60000) (TPrim (PInt 4)) (
  FNil)))).
(* messages/electleaders/response/replicaelectionresult/partitionresult.go *)
Definition s_electleaders_response_replicaelectionresult_PartitionResult : sch := Sch 2 32767 (
  (* partitionId *) FCons (mkctx 0 32767 2 32767 0 0 0 0 None false) DNone (TPrim (PInt 4)) (
  (* errorCode *) FCons (mkctx 0 32767 2 32767 0 0 0 0 None false) DNone (TPrim (PInt 2)) (
  (* errorMessage *) FCons (mkctx 0 32767 2 32767 0 32767 0 0 None false) DNone (TPrim PStr) (
  FNil)))).
(* messages/electleaders/response/replicaelectionresult.go *)
Definition s_electleaders_response_ReplicaElectionResult : sch := Sch 2 32767 (
  (* topic *) FCons (mkctx 0 32767 2 32767 0 0 0 0 None false) DNone (TPrim PStr) (
  (* partitionResult *) FCons (mkctx 0 32767 2 32767 0 0 0 0 None false) DNone (TArrS s_electleaders_response_replicaelectionresult_PartitionResult) (
  FNil))).
(* messages/electleaders/response.go *)
Definition s_electleaders_Response : sch := Sch 2 32767 (
  (* throttleTimeMs *) FCons (mkctx 0 32767 2 32767 0 0 0 0 None false) DNone (TPrim (PInt 4)) (
  (* errorCode *) FCons (mkctx 1 32767 2 32767 0 0 0 0 None false) DNone (TPrim (PInt 2)) (
  (* replicaElectionResults *) FCons (mkctx 0 32767 2 32767 0 0 0 0 None false) DNone (TArrS s_electleaders_response_ReplicaElectionResult) (
  FNil)))).
(* messages/endquorumepoch/request/topicdata/partitiondata.go *)
Definition s_endquorumepoch_request_topicdata_PartitionData : sch := Sch 32767 32767 (
  (* partitionIndex *) FCons (mkctx 0 32767 32767 32767 0 0 0 0 None false) DNone (TPrim (PInt 4)) (
  (* leaderId *) FCons (mkctx 0 32767 32767 32767 0 0 0 0 None false) DNone (TPrim (PInt 4)) (
  (* leaderEpoch *) FCons (mkctx 0 32767 32767 32767 0 0 0 0 None false) DNone (TPrim (PInt 4)) (
  (* preferredSuccessors *) FCons (mkctx 0 32767 32767 32767 0 0 0 0 None false) DNone (TArr (PInt 4)) (
  FNil))))).
(* messages/endquorumepoch/request/topicdata.go *)
Definition s_endquorumepoch_request_TopicData : sch := Sch 32767 32767 (
  (* topicName *) FCons (mkctx 0 32767 32767 32767 0 0 0 0 None false) DNone (TPrim PStr) (
  (* partitions *) FCons (mkctx 0 32767 32767 32767 0 0 0 0 None false) DNone (TArrS s_endquorumepoch_request_topicdata_PartitionData) (
  FNil))).
(* messages/endquorumepoch/request.go *)
Definition s_endquorumepoch_Request : sch := Sch 32767 32767 (
  (* clusterId *) FCons (mkctx 0 32767 32767 32767 0 32767 0 0 None false) (DStr null_text) (TPrim PStr) (
  (* topics *) FCons (mkctx 0 32767 32767 32767 0 0 0 0 None false) DNone (TArrS s_endquorumepoch_request_TopicData) (
  FNil))).
(* messages/endquorumepoch/response/topicdata/partitiondata.go *)
Definition s_endquorumepoch_response_topicdata_PartitionData : sch := Sch 32767 32767 (
  (* partitionIndex *) FCons (mkctx 0 32767 32767 32767 0 0 0 0 None false) DNone (TPrim (PInt 4)) (
  (* errorCode *) FCons (mkctx 0 32767 32767 32767 0 0 0 0 None false) DNone (TPrim (PInt 2)) (
  (* leaderId *) FCons (mkctx 0 32767 32767 32767 0 0 0 0 None false) DNone (TPrim (PInt 4)) (
  (* leaderEpoch *) FCons (mkctx 0 32767 32767 32767 0 0 0 0 None false) DNone (TPrim (PInt 4)) (
  FNil))))).
(* messages/endquorumepoch/response/topicdata.go *)
Definition s_endquorumepoch_response_TopicData : sch := Sch 32767 32767 (
  (* topicName *) FCons (mkctx 0 32767 32767 32767 0 0 0 0 None false) DNone (TPrim PStr) (
  (* partitions *) FCons (mkctx 0 32767 32767 32767 0 0 0 0 None false) DNone (TArrS s_endquorumepoch_response_topicdata_PartitionData) (
  FNil))).
(* messages/endquorumepoch/response.go *)
Definition s_endquorumepoch_Response : sch := Sch 32767 32767 (
  (* errorCode *) FCons (mkctx 0 32767 32767 32767 0 0 0 0 None false) DNone (TPrim (PInt 2)) (
  (* topics *) FCons (mkctx 0 32767 32767 32767 0 0 0 0 None false) DNone (TArrS s_endquorumepoch_response_TopicData) (
  FNil))).
(* messages/endtxn/request.go *)
Definition s_endtxn_Request : sch := Sch 3 32767 (
  (* transactionalId *) FCons (mkctx 0 32767 3 32767 0 0 0 0 None false) DNone (TPrim PStr) (
  (* producerId *) FCons (mkctx 0 32767 3 32767 0 0 0 0 None false) DNone (TPrim (PInt 8)) (
  (* producerEpoch *) FCons (mkctx 0 32767 3 32767 0 0 0 0 None false) DNone (TPrim (PInt 2)) (
  (* committed *) FCons (mkctx 0 32767 3 32767 0 0 0 0 None false) DNone (TPrim PBool) (
  FNil))))).
(* messages/endtxn/response.go *)
Definition s_endtxn_Response : sch := Sch 3 32767 (
  (* throttleTimeMs *) FCons (mkctx 0 32767 3 32767 0 0 0 0 None false) DNone (TPrim (PInt 4)) (
  (* errorCode *) FCons (mkctx 0 32767 3 32767 0 0 0 0 None false) DNone (TPrim (PInt 2)) (
  FNil))).
(* messages/envelope/request.go *)
Definition s_envelope_Request : sch := Sch 0 32767 (
  (* requestData *) FCons (mkctx 0 32767 0 32767 0 0 0 0 None false) DNone (TPrim PBytes) (
  (* requestPrincipal *) FCons (mkctx 0 32767 0 32767 0 32767 0 0 None false) DNone (TPrim PBytes) (
  (* clientHostAddress *) FCons (mkctx 0 32767 0 32767 0 0 0 0 None false) DNone (TPrim PBytes) (
  FNil)))).
(* messages/envelope/response.go *)
Definition s_envelope_Response : sch := Sch 0 32767 (
  (* responseData *) FCons (mkctx 0 32767 0 32767 0 32767 0 0 None false) DNone (TPrim PBytes) (
  (* errorCode *) FCons (mkctx 0 32767 0 32767 0 0 0 0 None false) DNone (TPrim (PInt 2)) (
  FNil))).
(* messages/expiredelegationtoken/request.go *)
Definition s_expiredelegationtoken_Request : sch := Sch 2 32767 (
  (* hmac *) FCons (mkctx 0 32767 2 32767 0 0 0 0 None false) DNone (TPrim PBytes) (
  (* expiryTimePeriodMs *) FCons (mkctx 0 32767 2 32767 0 0 0 0 None false) DNone (TPrim (PInt 8)) (
  FNil))).
(* messages/expiredelegationtoken/response.go *)
Definition s_expiredelegationtoken_Response : sch := Sch 2 32767 (
  (* errorCode *) FCons (mkctx 0 32767 2 32767 0 0 0 0 None false) DNone (TPrim (PInt 2)) (
  (* expiryTimestampMs *) FCons (mkctx 0 32767 2 32767 0 0 0 0 None false) DNone (TPrim (PInt 8)) (
  (* throttleTimeMs *) FCons (mkctx 0 32767 2 32767 0 0 0 0 None false) DNone (TPrim (PInt 4)) (
  FNil)))).
(* messages/fetch/request/fetchtopic/fetchpartition.go *)
Definition s_fetch_request_fetchtopic_FetchPartition : sch := Sch 12 32767 (
  (* partition *) FCons (mkctx 0 32767 12 32767 0 0 0 0 None false) DNone (TPrim (PInt 4)) (
  (* currentLeaderEpoch *) FCons (mkctx 9 32767 12 32767 0 0 0 0 None true) (DInt (-1)) (TPrim (PInt 4)) (
  (* fetchOffset *) FCons (mkctx 0 32767 12 32767 0 0 0 0 None false) DNone (TPrim (PInt 8)) (
  (* lastFetchedEpoch *) FCons (mkctx 12 32767 12 32767 0 0 0 0 None false) (DInt (-1)) (TPrim (PInt 4)) (
  (* logStartOffset *) FCons (mkctx 5 32767 12 32767 0 0 0 0 None true) (DInt (-1)) (TPrim (PInt 8)) (
  (* partitionMaxBytes *) FCons (mkctx 0 32767 12 32767 0 0 0 0 None false) DNone (TPrim (PInt 4)) (
  FNil))))))).
(* messages/fetch/request/fetchtopic.go *)
Definition s_fetch_request_FetchTopic : sch := Sch 12 32767 (
  (* topic *) FCons (mkctx 0 12 12 32767 0 0 0 0 None false) DNone (TPrim PStr) (
  (* topicId *) FCons (mkctx 13 32767 12 32767 0 0 0 0 None true) DNone (TPrim PUuid) (
  (* partitions *) FCons (mkctx 0 32767 12 32767 0 0 0 0 None false) DNone (TArrS s_fetch_request_fetchtopic_FetchPartition) (
  FNil)))).
(* messages/fetch/request/forgottentopic.go *)
Definition s_fetch_request_ForgottenTopic : sch := Sch 12 32767 (
  (* topic *) FCons (mkctx 7 12 12 32767 0 0 0 0 None true) DNone (TPrim PStr) (
  (* topicId *) FCons (mkctx 13 32767 12 32767 0 0 0 0 None true) DNone (TPrim PUuid) (
  (* partitions *) FCons (mkctx 7 32767 12 32767 0 0 0 0 None false) DNone (TArr (PInt 4)) (
  FNil)))).
(* messages/fetch/request.go *)
Definition s_fetch_Request : sch := Sch 12 32767 (
  (* clusterId *) FCons (mkctx 12 32767 12 32767 12 32767 12 32767 (Some 0) true) (DStr null_text) (TPrim PStr) (
  (* replicaId *) FCons (mkctx 0 32767 12 32767 0 0 0 0 None false) DNone (TPrim (PInt 4)) (
  (* maxWaitMs *) FCons (mkctx 0 32767 12 32767 0 0 0 0 None false) DNone (TPrim (PInt 4)) (
  (* minBytes *) FCons (mkctx 0 32767 12 32767 0 0 0 0 None false) DNone (TPrim (PInt 4)) (
  (* maxBytes *) FCons (mkctx 3 32767 12 32767 0 0 0 0 None true) (DInt 2147483647) (TPrim (PInt 4)) (
  (* isolationLevel *) FCons (mkctx 4 32767 12 32767 0 0 0 0 None true) DNone (TPrim (PInt 1)) (
  (* sessionId *) FCons (mkctx 7 32767 12 32767 0 0 0 0 None true) DNone (TPrim (PInt 4)) (
  (* sessionEpoch *) FCons (mkctx 7 32767 12 32767 0 0 0 0 None true) (DInt (-1)) (TPrim (PInt 4)) (
  (* topics *) FCons (mkctx 0 32767 12 32767 0 0 0 0 None false) DNone (TArrS s_fetch_request_FetchTopic) (
  (* forgottenTopicsData *) FCons (mkctx 7 32767 12 32767 0 0 0 0 None false) DNone (TArrS s_fetch_request_ForgottenTopic) (
  (* rackId *) FCons (mkctx 11 32767 12 32767 0 0 0 0 None true) DNone (TPrim PStr) (
  FNil)))))))))))).
(* messages/fetch/response/fetchabletopicresponse/partitiondata/epochendoffset.go *)
Definition s_fetch_response_fetchabletopicresponse_partitiondata_EpochEndOffset : sch := Sch 12 32767 (
  (* epoch *) FCons (mkctx 12 32767 12 32767 0 0 0 0 None false) (DInt (-1)) (TPrim (PInt 4)) (
  (* endOffset *) FCons (mkctx 12 32767 12 32767 0 0 0 0 None false) (DInt (-1)) (TPrim (PInt 8)) (
  FNil))).
(* messages/fetch/response/fetchabletopicresponse/partitiondata/leaderidandepoch.go *)
Definition s_fetch_response_fetchabletopicresponse_partitiondata_LeaderIdAndEpoch : sch := Sch 12 32767 (
  (* leaderId *) FCons (mkctx 12 32767 12 32767 0 0 0 0 None false) (DInt (-1)) (TPrim (PInt 4)) (
  (* leaderEpoch *) FCons (mkctx 12 32767 12 32767 0 0 0 0 None false) (DInt (-1)) (TPrim (PInt 4)) (
  FNil))).
(* messages/fetch/response/fetchabletopicresponse/partitiondata/snapshotid.go *)
Definition s_fetch_response_fetchabletopicresponse_partitiondata_SnapshotId : sch := Sch 12 32767 (
  (* endOffset *) FCons (mkctx 0 32767 12 32767 0 0 0 0 None false) (DInt (-1)) (TPrim (PInt 8)) (
  (* epoch *) FCons (mkctx 0 32767 12 32767 0 0 0 0 None false) (DInt (-1)) (TPrim (PInt 4)) (
  FNil))).
(* messages/fetch/response/fetchabletopicresponse/partitiondata/abortedtransaction.go *)
Definition s_fetch_response_fetchabletopicresponse_partitiondata_AbortedTransaction : sch := Sch 12 32767 (
  (* producerId *) FCons (mkctx 4 32767 12 32767 4 32767 0 0 None false) DNone (TPrim (PInt 8)) (
  (* firstOffset *) FCons (mkctx 4 32767 12 32767 4 32767 0 0 None false) DNone (TPrim (PInt 8)) (
  FNil))).
(* messages/fetch/response/fetchabletopicresponse/partitiondata.go *)
Definition s_fetch_response_fetchabletopicresponse_PartitionData : sch := Sch 12 32767 (
  (* partitionIndex *) FCons (mkctx 0 32767 12 32767 0 0 0 0 None false) DNone (TPrim (PInt 4)) (
  (* errorCode *) FCons (mkctx 0 32767 12 32767 0 0 0 0 None false) DNone (TPrim (PInt 2)) (
  (* highWatermark *) FCons (mkctx 0 32767 12 32767 0 0 0 0 None false) DNone (TPrim (PInt 8)) (
  (* lastStableOffset *) FCons (mkctx 4 32767 12 32767 0 0 0 0 None true) (DInt (-1)) (TPrim (PInt 8)) (
  (* logStartOffset *) FCons (mkctx 5 32767 12 32767 0 0 0 0 None true) (DInt (-1)) (TPrim (PInt 8)) (
  (* divergingEpoch *) FCons (mkctx 12 32767 12 32767 0 0 12 32767 (Some 0) false) DNone (TStruct s_fetch_response_fetchabletopicresponse_partitiondata_EpochEndOffset) (
  (* currentLeader *) FCons (mkctx 12 32767 12 32767 0 0 12 32767 (Some 1) false) DNone (TStruct s_fetch_response_fetchabletopicresponse_partitiondata_LeaderIdAndEpoch) (
  (* snapshotId *) FCons (mkctx 12 32767 12 32767 0 0 12 32767 (Some 2) false) DNone (TStruct s_fetch_response_fetchabletopicresponse_partitiondata_SnapshotId) (
  (* abortedTransactions *) FCons (mkctx 4 32767 12 32767 4 32767 0 0 None true) DNone (TArrS s_fetch_response_fetchabletopicresponse_partitiondata_AbortedTransaction) (
  (* preferredReadReplica *) FCons (mkctx 11 32767 12 32767 0 0 0 0 None false) (DInt (-1)) (TPrim (PInt 4)) (
  (* records *) FCons (mkctx 0 32767 12 32767 0 32767 0 0 None false) DNone (TPrim PRec) (
  FNil)))))))))))).
(* messages/fetch/response/fetchabletopicresponse.go *)
Definition s_fetch_response_FetchableTopicResponse : sch := Sch 12 32767 (
  (* topic *) FCons (mkctx 0 12 12 32767 0 0 0 0 None false) DNone (TPrim PStr) (
  (* topicId *) FCons (mkctx 13 32767 12 32767 0 0 0 0 None true) DNone (TPrim PUuid) (
  (* partitions *) FCons (mkctx 0 32767 12 32767 0 0 0 0 None false) DNone (TArrS s_fetch_response_fetchabletopicresponse_PartitionData) (
  FNil)))).
(* messages/fetch/response.go *)
Definition s_fetch_Response : sch := Sch 12 32767 (
  (* throttleTimeMs *) FCons (mkctx 1 32767 12 32767 0 0 0 0 None true) DNone (TPrim (PInt 4)) (
  (* errorCode *) FCons (mkctx 7 32767 12 32767 0 0 0 0 None true) DNone (TPrim (PInt 2)) (
  (* sessionId *) FCons (mkctx 7 32767 12 32767 0 0 0 0 None false) DNone (TPrim (PInt 4)) (
  (* responses *) FCons (mkctx 0 32767 12 32767 0 0 0 0 None false) DNone (TArrS s_fetch_response_FetchableTopicResponse) (
  FNil))))).
(* messages/fetchsnapshot/request/topicsnapshot/partitionsnapshot/snapshotid.go *)
Definition s_fetchsnapshot_request_topicsnapshot_partitionsnapshot_SnapshotId : sch := Sch 0 32767 (
  (* endOffset *) FCons (mkctx 0 32767 0 32767 0 0 0 0 None false) DNone (TPrim (PInt 8)) (
  (* epoch *) FCons (mkctx 0 32767 0 32767 0 0 0 0 None false) DNone (TPrim (PInt 4)) (
  FNil))).
(* messages/fetchsnapshot/request/topicsnapshot/partitionsnapshot.go *)
Definition s_fetchsnapshot_request_topicsnapshot_PartitionSnapshot : sch := Sch 0 32767 (
  (* partition *) FCons (mkctx 0 32767 0 32767 0 0 0 0 None false) DNone (TPrim (PInt 4)) (
  (* currentLeaderEpoch *) FCons (mkctx 0 32767 0 32767 0 0 0 0 None false) DNone (TPrim (PInt 4)) (
  (* snapshotId *) FCons (mkctx 0 32767 0 32767 0 0 0 0 None false) DNone (TStruct s_fetchsnapshot_request_topicsnapshot_partitionsnapshot_SnapshotId) (
  (* position *) FCons (mkctx 0 32767 0 32767 0 0 0 0 None false) DNone (TPrim (PInt 8)) (
  FNil))))).
(* messages/fetchsnapshot/request/topicsnapshot.go *)
Definition s_fetchsnapshot_request_TopicSnapshot : sch := Sch 0 32767 (
  (* name *) FCons (mkctx 0 32767 0 32767 0 0 0 0 None false) DNone (TPrim PStr) (
  (* partitions *) FCons (mkctx 0 32767 0 32767 0 0 0 0 None false) DNone (TArrS s_fetchsnapshot_request_topicsnapshot_PartitionSnapshot) (
  FNil))).
(* messages/fetchsnapshot/request.go *)
Definition s_fetchsnapshot_Request : sch := Sch 0 32767 (
  (* clusterId *) FCons (mkctx 0 32767 0 32767 0 32767 0 32767 (Some 0) false) (DStr null_text) (TPrim PStr) (
  (* replicaId *) FCons (mkctx 0 32767 0 32767 0 0 0 0 None false) (DInt (-1)) (TPrim (PInt 4)) (
  (* maxBytes *) FCons (mkctx 0 32767 0 32767 0 0 0 0 None false) (DInt 2147483647) (TPrim (PInt 4)) (
  (* topics *) FCons (mkctx 0 32767 0 32767 0 0 0 0 None false) DNone (TArrS s_fetchsnapshot_request_TopicSnapshot) (
  FNil))))).
(* messages/fetchsnapshot/response/topicsnapshot/partitionsnapshot/snapshotid.go *)
Definition s_fetchsnapshot_response_topicsnapshot_partitionsnapshot_SnapshotId : sch := Sch 0 32767 (
  (* endOffset *) FCons (mkctx 0 32767 0 32767 0 0 0 0 None false) DNone (TPrim (PInt 8)) (
  (* epoch *) FCons (mkctx 0 32767 0 32767 0 0 0 0 None false) DNone (TPrim (PInt 4)) (
  FNil))).
(* messages/fetchsnapshot/response/topicsnapshot/partitionsnapshot/leaderidandepoch.go *)
Definition s_fetchsnapshot_response_topicsnapshot_partitionsnapshot_LeaderIdAndEpoch : sch := Sch 0 32767 (
  (* leaderId *) FCons (mkctx 0 32767 0 32767 0 0 0 0 None false) DNone (TPrim (PInt 4)) (
  (* leaderEpoch *) FCons (mkctx 0 32767 0 32767 0 0 0 0 None false) DNone (TPrim (PInt 4)) (
  FNil))).
(* messages/fetchsnapshot/response/topicsnapshot/partitionsnapshot.go *)
Definition s_fetchsnapshot_response_topicsnapshot_PartitionSnapshot : sch := Sch 0 32767 (
  (* index *) FCons (mkctx 0 32767 0 32767 0 0 0 0 None false) DNone (TPrim (PInt 4)) (
  (* errorCode *) FCons (mkctx 0 32767 0 32767 0 0 0 0 None false) DNone (TPrim (PInt 2)) (
  (* snapshotId *) FCons (mkctx 0 32767 0 32767 0 0 0 0 None false) DNone (TStruct s_fetchsnapshot_response_topicsnapshot_partitionsnapshot_SnapshotId) (
  (* currentLeader *) FCons (mkctx 0 32767 0 32767 0 0 0 32767 (Some 0) false) DNone (TStruct s_fetchsnapshot_response_topicsnapshot_partitionsnapshot_LeaderIdAndEpoch) (
  (* size *) FCons (mkctx 0 32767 0 32767 0 0 0 0 None false) DNone (TPrim (PInt 8)) (
  (* position *) FCons (mkctx 0 32767 0 32767 0 0 0 0 None false) DNone (TPrim (PInt 8)) (
  (* unalignedRecords *) FCons (mkctx 0 32767 0 32767 0 0 0 0 None false) DNone (TPrim PRec) (
  FNil)))))))).
(* messages/fetchsnapshot/response/topicsnapshot.go *)
Definition s_fetchsnapshot_response_TopicSnapshot : sch := Sch 0 32767 (
  (* name *) FCons (mkctx 0 32767 0 32767 0 0 0 0 None false) DNone (TPrim PStr) (
  (* partitions *) FCons (mkctx 0 32767 0 32767 0 0 0 0 None false) DNone (TArrS s_fetchsnapshot_response_topicsnapshot_PartitionSnapshot) (
  FNil))).
(* messages/fetchsnapshot/response.go *)
Definition s_fetchsnapshot_Response : sch := Sch 0 32767 (
  (* throttleTimeMs *) FCons (mkctx 0 32767 0 32767 0 0 0 0 None false) DNone (TPrim (PInt 4)) (
  (* errorCode *) FCons (mkctx 0 32767 0 32767 0 0 0 0 None false) DNone (TPrim (PInt 2)) (
  (* topics *) FCons (mkctx 0 32767 0 32767 0 0 0 0 None false) DNone (TArrS s_fetchsnapshot_response_TopicSnapshot) (
  FNil)))).
(* messages/findcoordinator/request.go *)
Definition s_findcoordinator_Request : sch := Sch 3 32767 (
  (* key *) FCons (mkctx 0 3 3 32767 0 0 0 0 None false) DNone (TPrim PStr) (
  (* keyType *) FCons (mkctx 1 32767 3 32767 0 0 0 0 None false) DNone (TPrim (PInt 1)) (
  (* coordinatorKeys *) FCons (mkctx 4 32767 3 32767 0 0 0 0 None false) DNone (TArr PStr) (
  FNil)))).
(* messages/findcoordinator/response/coordinator.go *)
Definition s_findcoordinator_response_Coordinator : sch := Sch 3 32767 (
  (* key *) FCons (mkctx 4 32767 3 32767 0 0 0 0 None false) DNone (TPrim PStr) (
  (* nodeId *) FCons (mkctx 4 32767 3 32767 0 0 0 0 None false) DNone (TPrim (PInt 4)) (
  (* host *) FCons (mkctx 4 32767 3 32767 0 0 0 0 None false) DNone (TPrim PStr) (
  (* port *) FCons (mkctx 4 32767 3 32767 0 0 0 0 None false) DNone (TPrim (PInt 4)) (
  (* errorCode *) FCons (mkctx 4 32767 3 32767 0 0 0 0 None false) DNone (TPrim (PInt 2)) (
  (* errorMessage *) FCons (mkctx 4 32767 3 32767 4 32767 0 0 None true) DNone (TPrim PStr) (
  FNil))))))).
(* messages/findcoordinator/response.go *)
Definition s_findcoordinator_Response : sch := Sch 3 32767 (
  (* throttleTimeMs *) FCons (mkctx 1 32767 3 32767 0 0 0 0 None true) DNone (TPrim (PInt 4)) (
  (* errorCode *) FCons (mkctx 0 3 3 32767 0 0 0 0 None false) DNone (TPrim (PInt 2)) (
  (* errorMessage *) FCons (mkctx 1 3 3 32767 1 3 0 0 None true) DNone (TPrim PStr) (
  (* nodeId *) FCons (mkctx 0 3 3 32767 0 0 0 0 None false) DNone (TPrim (PInt 4)) (
  (* host *) FCons (mkctx 0 3 3 32767 0 0 0 0 None false) DNone (TPrim PStr) (
  (* port *) FCons (mkctx 0 3 3 32767 0 0 0 0 None false) DNone (TPrim (PInt 4)) (
  (* coordinators *) FCons (mkctx 4 32767 3 32767 0 0 0 0 None false) DNone (TArrS s_findcoordinator_response_Coordinator) (
  FNil)))))))).
(* messages/heartbeat/request.go *)
Definition s_heartbeat_Request : sch := Sch 4 32767 (
  (* groupId *) FCons (mkctx 0 32767 4 32767 0 0 0 0 None false) DNone (TPrim PStr) (
  (* generationId *) FCons (mkctx 0 32767 4 32767 0 0 0 0 None false) DNone (TPrim (PInt 4)) (
  (* memberId *) FCons (mkctx 0 32767 4 32767 0 0 0 0 None false) DNone (TPrim PStr) (
  (* groupInstanceId *) FCons (mkctx 3 32767 4 32767 3 32767 0 0 None false) (DStr null_text) (TPrim PStr) (
  FNil))))).
(* messages/heartbeat/response.go *)
Definition s_heartbeat_Response : sch := Sch 4 32767 (
  (* throttleTimeMs *) FCons (mkctx 1 32767 4 32767 0 0 0 0 None true) DNone (TPrim (PInt 4)) (
  (* errorCode *) FCons (mkctx 0 32767 4 32767 0 0 0 0 None false) DNone (TPrim (PInt 2)) (
  FNil))).
(* messages/incrementalalterconfigs/request/alterconfigsresource/alterableconfig.go *)
Definition s_incrementalalterconfigs_request_alterconfigsresource_AlterableConfig : sch := Sch 1 32767 (
  (* name *) FCons (mkctx 0 32767 1 32767 0 0 0 0 None false) DNone (TPrim PStr) (
  (* configOperation *) FCons (mkctx 0 32767 1 32767 0 0 0 0 None false) DNone (TPrim (PInt 1)) (
  (* value *) FCons (mkctx 0 32767 1 32767 0 32767 0 0 None false) DNone (TPrim PStr) (
  FNil)))).
(* messages/incrementalalterconfigs/request/alterconfigsresource.go *)
Definition s_incrementalalterconfigs_request_AlterConfigsResource : sch := Sch 1 32767 (
  (* resourceType *) FCons (mkctx 0 32767 1 32767 0 0 0 0 None false) DNone (TPrim (PInt 1)) (
  (* resourceName *) FCons (mkctx 0 32767 1 32767 0 0 0 0 None false) DNone (TPrim PStr) (
  (* configs *) FCons (mkctx 0 32767 1 32767 0 0 0 0 None false) DNone (TArrS s_incrementalalterconfigs_request_alterconfigsresource_AlterableConfig) (
  FNil)))).
(* messages/incrementalalterconfigs/request.go *)
Definition s_incrementalalterconfigs_Request : sch := Sch 1 32767 (
  (* resources *) FCons (mkctx 0 32767 1 32767 0 0 0 0 None false) DNone (TArrS s_incrementalalterconfigs_request_AlterConfigsResource) (
  (* validateOnly *) FCons (mkctx 0 32767 1 32767 0 0 0 0 None false) DNone (TPrim PBool) (
  FNil))).
(* messages/incrementalalterconfigs/response/alterconfigsresourceresponse.go *)
Definition s_incrementalalterconfigs_response_AlterConfigsResourceResponse : sch := Sch 1 32767 (
  (* errorCode *) FCons (mkctx 0 32767 1 32767 0 0 0 0 None false) DNone (TPrim (PInt 2)) (
  (* errorMessage *) FCons (mkctx 0 32767 1 32767 0 32767 0 0 None false) DNone (TPrim PStr) (
  (* resourceType *) FCons (mkctx 0 32767 1 32767 0 0 0 0 None false) DNone (TPrim (PInt 1)) (
  (* resourceName *) FCons (mkctx 0 32767 1 32767 0 0 0 0 None false) DNone (TPrim PStr) (
  FNil))))).
(* messages/incrementalalterconfigs/response.go *)
Definition s_incrementalalterconfigs_Response : sch := Sch 1 32767 (
  (* throttleTimeMs *) FCons (mkctx 0 32767 1 32767 0 0 0 0 None false) DNone (TPrim (PInt 4)) (
  (* responses *) FCons (mkctx 0 32767 1 32767 0 0 0 0 None false) DNone (TArrS s_incrementalalterconfigs_response_AlterConfigsResourceResponse) (
  FNil))).
(* messages/initproducerid/request.go *)
Definition s_initproducerid_Request : sch := Sch 2 32767 (
  (* transactionalId *) FCons (mkctx 0 32767 2 32767 0 32767 0 0 None false) DNone (TPrim PStr) (
  (* transactionTimeoutMs *) FCons (mkctx 0 32767 2 32767 0 0 0 0 None false) DNone (TPrim (PInt 4)) (
  (* producerId *) FCons (mkctx 3 32767 2 32767 0 0 0 0 None false) (DInt (-1)) (TPrim (PInt 8)) (
  (* producerEpoch *) FCons (mkctx 3 32767 2 32767 0 0 0 0 None false) (DInt (-1)) (TPrim (PInt 2)) (
  FNil))))).
(* messages/initproducerid/response.go *)
Definition s_initproducerid_Response : sch := Sch 2 32767 (
  (* throttleTimeMs *) FCons (mkctx 0 32767 2 32767 0 0 0 0 None false) DNone (TPrim (PInt 4)) (
  (* errorCode *) FCons (mkctx 0 32767 2 32767 0 0 0 0 None false) DNone (TPrim (PInt 2)) (
  (* producerId *) FCons (mkctx 0 32767 2 32767 0 0 0 0 None false) (DInt (-1)) (TPrim (PInt 8)) (
  (* producerEpoch *) FCons (mkctx 0 32767 2 32767 0 0 0 0 None false) DNone (TPrim (PInt 2)) (
  FNil))))).
(* messages/joingroup/request/joingrouprequestprotocol.go *)
Definition s_joingroup_request_JoinGroupRequestProtocol : sch := Sch 6 32767 (
  (* name *) FCons (mkctx 0 32767 6 32767 0 0 0 0 None false) DNone (TPrim PStr) (
  (* metadata *) FCons (mkctx 0 32767 6 32767 0 0 0 0 None false) DNone (TPrim PBytes) (
  FNil))).
(* messages/joingroup/request.go *)
Definition s_joingroup_Request : sch := Sch 6 32767 (
  (* groupId *) FCons (mkctx 0 32767 6 32767 0 0 0 0 None false) DNone (TPrim PStr) (
  (* sessionTimeoutMs *) FCons (mkctx 0 32767 6 32767 0 0 0 0 None false) DNone (TPrim (PInt 4)) (
  (* rebalanceTimeoutMs *) FCons (mkctx 1 32767 6 32767 0 0 0 0 None true) (DInt (-1)) (TPrim (PInt 4)) (
  (* memberId *) FCons (mkctx 0 32767 6 32767 0 0 0 0 None false) DNone (TPrim PStr) (
  (* groupInstanceId *) FCons (mkctx 5 32767 6 32767 5 32767 0 0 None false) (DStr null_text) (TPrim PStr) (
  (* protocolType *) FCons (mkctx 0 32767 6 32767 0 0 0 0 None false) DNone (TPrim PStr) (
  (* protocols *) FCons (mkctx 0 32767 6 32767 0 0 0 0 None false) DNone (TArrS s_joingroup_request_JoinGroupRequestProtocol) (
  (* reason *) FCons (mkctx 8 32767 6 32767 8 32767 0 0 None true) (DStr null_text) (TPrim PStr) (
  FNil))))))))).
(* messages/joingroup/response/joingroupresponsemember.go *)
Definition s_joingroup_response_JoinGroupResponseMember : sch := Sch 6 32767 (
  (* memberId *) FCons (mkctx 0 32767 6 32767 0 0 0 0 None false) DNone (TPrim PStr) (
  (* groupInstanceId *) FCons (mkctx 5 32767 6 32767 5 32767 0 0 None true) (DStr null_text) (TPrim PStr) (
  (* metadata *) FCons (mkctx 0 32767 6 32767 0 0 0 0 None false) DNone (TPrim PBytes) (
  FNil)))).
(* messages/joingroup/response.go *)
Definition s_joingroup_Response : sch := Sch 6 32767 (
  (* throttleTimeMs *) FCons (mkctx 2 32767 6 32767 0 0 0 0 None true) DNone (TPrim (PInt 4)) (
  (* errorCode *) FCons (mkctx 0 32767 6 32767 0 0 0 0 None false) DNone (TPrim (PInt 2)) (
  (* generationId *) FCons (mkctx 0 32767 6 32767 0 0 0 0 None false) (DInt (-1)) (TPrim (PInt 4)) (
  (* protocolType *) FCons (mkctx 7 32767 6 32767 7 32767 0 0 None true) (DStr null_text) (TPrim PStr) (
  (* protocolName *) FCons (mkctx 0 32767 6 32767 7 32767 0 0 None false) DNone (TPrim PStr) (
  (* leader *) FCons (mkctx 0 32767 6 32767 0 0 0 0 None false) DNone (TPrim PStr) (
  (* skipAssignment *) FCons (mkctx 9 32767 6 32767 0 0 0 0 None false) DNone (TPrim PBool) (
  (* memberId *) FCons (mkctx 0 32767 6 32767 0 0 0 0 None false) DNone (TPrim PStr) (
  (* members *) FCons (mkctx 0 32767 6 32767 0 0 0 0 None false) DNone (TArrS s_joingroup_response_JoinGroupResponseMember) (
  FNil)))))))))).
(* messages/leaderandisr/common/leaderandisrpartitionstate.go *)
Definition s_leaderandisr_common_LeaderAndIsrPartitionState : sch := Sch 4 32767 (
  (* topicName *) FCons (mkctx 0 1 4 32767 0 0 0 0 None false) DNone (TPrim PStr) (
  (* partitionIndex *) FCons (mkctx 0 32767 4 32767 0 0 0 0 None false) DNone (TPrim (PInt 4)) (
  (* controllerEpoch *) FCons (mkctx 0 32767 4 32767 0 0 0 0 None false) DNone (TPrim (PInt 4)) (
  (* leader *) FCons (mkctx 0 32767 4 32767 0 0 0 0 None false) DNone (TPrim (PInt 4)) (
  (* leaderEpoch *) FCons (mkctx 0 32767 4 32767 0 0 0 0 None false) DNone (TPrim (PInt 4)) (
  (* isr *) FCons (mkctx 0 32767 4 32767 0 0 0 0 None false) DNone (TArr (PInt 4)) (
  (* partitionEpoch *) FCons (mkctx 0 32767 4 32767 0 0 0 0 None false) DNone (TPrim (PInt 4)) (
  (* replicas *) FCons (mkctx 0 32767 4 32767 0 0 0 0 None false) DNone (TArr (PInt 4)) (
  (* addingReplicas *) FCons (mkctx 3 32767 4 32767 0 0 0 0 None true) DNone (TArr (PInt 4)) (
  (* removingReplicas *) FCons (mkctx 3 32767 4 32767 0 0 0 0 None true) DNone (TArr (PInt 4)) (
  (* isNew *) FCons (mkctx 1 32767 4 32767 0 0 0 0 None true) DNone (TPrim PBool) (
  (* leaderRecoveryState *) FCons (mkctx 6 32767 4 32767 0 0 0 0 None false) DNone (TPrim (PInt 1)) (
  FNil))))))))))))).
(* messages/leaderandisr/request/leaderandisrtopicstate.go *)
Definition s_leaderandisr_request_LeaderAndIsrTopicState : sch := Sch 4 32767 (
  (* topicName *) FCons (mkctx 2 32767 4 32767 0 0 0 0 None false) DNone (TPrim PStr) (
  (* topicId *) FCons (mkctx 5 32767 4 32767 0 0 0 0 None true) DNone (TPrim PUuid) (
  (* partitionStates *) FCons (mkctx 2 32767 4 32767 0 0 0 0 None false) DNone (TArrS s_leaderandisr_common_LeaderAndIsrPartitionState) (
  FNil)))).
(* messages/leaderandisr/request/leaderandisrliveleader.go *)
Definition s_leaderandisr_request_LeaderAndIsrLiveLeader : sch := Sch 4 32767 (
  (* brokerId *) FCons (mkctx 0 32767 4 32767 0 0 0 0 None false) DNone (TPrim (PInt 4)) (
  (* hostName *) FCons (mkctx 0 32767 4 32767 0 0 0 0 None false) DNone (TPrim PStr) (
  (* port *) FCons (mkctx 0 32767 4 32767 0 0 0 0 None false) DNone (TPrim (PInt 4)) (
  FNil)))).
(* messages/leaderandisr/request.go *)
Definition s_leaderandisr_Request : sch := Sch 4 32767 (
  (* controllerId *) FCons (mkctx 0 32767 4 32767 0 0 0 0 None false) DNone (TPrim (PInt 4)) (
  (* isKRaftController *) FCons (mkctx 7 32767 4 32767 0 0 0 0 None false) DNone (TPrim PBool) (
  (* controllerEpoch *) FCons (mkctx 0 32767 4 32767 0 0 0 0 None false) DNone (TPrim (PInt 4)) (
  (* brokerEpoch *) FCons (mkctx 2 32767 4 32767 0 0 0 0 None true) (DInt (-1)) (TPrim (PInt 8)) (
  (* _type *) FCons (mkctx 5 32767 4 32767 0 0 0 0 None false) DNone (TPrim (PInt 1)) (
  (* ungroupedPartitionStates *) FCons (mkctx 0 1 4 32767 0 0 0 0 None false) DNone (TArrS s_leaderandisr_common_LeaderAndIsrPartitionState) (
  (* topicStates *) FCons (mkctx 2 32767 4 32767 0 0 0 0 None false) DNone (TArrS s_leaderandisr_request_LeaderAndIsrTopicState) (
  (* liveLeaders *) FCons (mkctx 0 32767 4 32767 0 0 0 0 None false) DNone (TArrS s_leaderandisr_request_LeaderAndIsrLiveLeader) (
  FNil))))))))).
(* messages/leaderandisr/common/leaderandisrpartitionerror.go *)
Definition s_leaderandisr_common_LeaderAndIsrPartitionError : sch := Sch 4 32767 (
  (* topicName *) FCons (mkctx 0 4 4 32767 0 0 0 0 None false) DNone (TPrim PStr) (
  (* partitionIndex *) FCons (mkctx 0 32767 4 32767 0 0 0 0 None false) DNone (TPrim (PInt 4)) (
  (* errorCode *) FCons (mkctx 0 32767 4 32767 0 0 0 0 None false) DNone (TPrim (PInt 2)) (
  FNil)))).
(* messages/leaderandisr/response/leaderandisrtopicerror.go *)
Definition s_leaderandisr_response_LeaderAndIsrTopicError : sch := Sch 4 32767 (
  (* topicId *) FCons (mkctx 5 32767 4 32767 0 0 0 0 None false) DNone (TPrim PUuid) (
  (* partitionErrors *) FCons (mkctx 5 32767 4 32767 0 0 0 0 None false) DNone (TArrS s_leaderandisr_common_LeaderAndIsrPartitionError) (
  FNil))).
(* messages/leaderandisr/response.go *)
Definition s_leaderandisr_Response : sch := Sch 4 32767 (
  (* errorCode *) FCons (mkctx 0 32767 4 32767 0 0 0 0 None false) DNone (TPrim (PInt 2)) (
  (* partitionErrors *) FCons (mkctx 0 4 4 32767 0 0 0 0 None false) DNone (TArrS s_leaderandisr_common_LeaderAndIsrPartitionError) (
  (* topics *) FCons (mkctx 5 32767 4 32767 0 0 0 0 None false) DNone (TArrS s_leaderandisr_response_LeaderAndIsrTopicError) (
  FNil)))).
(* messages/leavegroup/request/memberidentity.go *)
Definition s_leavegroup_request_MemberIdentity : sch := Sch 4 32767 (
  (* memberId *) FCons (mkctx 3 32767 4 32767 0 0 0 0 None false) DNone (TPrim PStr) (
  (* groupInstanceId *) FCons (mkctx 3 32767 4 32767 3 32767 0 0 None false) (DStr null_text) (TPrim PStr) (
  (* reason *) FCons (mkctx 5 32767 4 32767 5 32767 0 0 None true) (DStr null_text) (TPrim PStr) (
  FNil)))).
(* messages/leavegroup/request.go *)
Definition s_leavegroup_Request : sch := Sch 4 32767 (
  (* groupId *) FCons (mkctx 0 32767 4 32767 0 0 0 0 None false) DNone (TPrim PStr) (
  (* memberId *) FCons (mkctx 0 2 4 32767 0 0 0 0 None false) DNone (TPrim PStr) (
  (* members *) FCons (mkctx 3 32767 4 32767 0 0 0 0 None false) DNone (TArrS s_leavegroup_request_MemberIdentity) (
  FNil)))).
(* messages/leavegroup/response/memberresponse.go *)
Definition s_leavegroup_response_MemberResponse : sch := Sch 4 32767 (
  (* memberId *) FCons (mkctx 3 32767 4 32767 0 0 0 0 None false) DNone (TPrim PStr) (
  (* groupInstanceId *) FCons (mkctx 3 32767 4 32767 3 32767 0 0 None false) DNone (TPrim PStr) (
  (* errorCode *) FCons (mkctx 3 32767 4 32767 0 0 0 0 None false) DNone (TPrim (PInt 2)) (
  FNil)))).
(* messages/leavegroup/response.go *)
Definition s_leavegroup_Response : sch := Sch 4 32767 (
  (* throttleTimeMs *) FCons (mkctx 1 32767 4 32767 0 0 0 0 None true) DNone (TPrim (PInt 4)) (
  (* errorCode *) FCons (mkctx 0 32767 4 32767 0 0 0 0 None false) DNone (TPrim (PInt 2)) (
  (* members *) FCons (mkctx 3 32767 4 32767 0 0 0 0 None false) DNone (TArrS s_leavegroup_response_MemberResponse) (
  FNil)))).
(* messages/listgroups/request.go *)
Definition s_listgroups_Request : sch := Sch 3 32767 (
  (* statesFilter *) FCons (mkctx 4 32767 3 32767 0 0 0 0 None false) DNone (TArr PStr) (
  FNil)).
(* messages/listgroups/response/listedgroup.go *)
Definition s_listgroups_response_ListedGroup : sch := Sch 3 32767 (
  (* groupId *) FCons (mkctx 0 32767 3 32767 0 0 0 0 None false) DNone (TPrim PStr) (
  (* protocolType *) FCons (mkctx 0 32767 3 32767 0 0 0 0 None false) DNone (TPrim PStr) (
  (* groupState *) FCons (mkctx 4 32767 3 32767 0 0 0 0 None true) DNone (TPrim PStr) (
  FNil)))).
(* messages/listgroups/response.go *)
Definition s_listgroups_Response : sch := Sch 3 32767 (
  (* throttleTimeMs *) FCons (mkctx 1 32767 3 32767 0 0 0 0 None true) DNone (TPrim (PInt 4)) (
  (* errorCode *) FCons (mkctx 0 32767 3 32767 0 0 0 0 None false) DNone (TPrim (PInt 2)) (
  (* groups *) FCons (mkctx 0 32767 3 32767 0 0 0 0 None false) DNone (TArrS s_listgroups_response_ListedGroup) (
  FNil)))).
(* messages/listoffsets/request/listoffsetstopic/listoffsetspartition.go *)
Definition s_listoffsets_request_listoffsetstopic_ListOffsetsPartition : sch := Sch 6 32767 (
  (* partitionIndex *) FCons (mkctx 0 32767 6 32767 0 0 0 0 None false) DNone (TPrim (PInt 4)) (
  (* currentLeaderEpoch *) FCons (mkctx 4 32767 6 32767 0 0 0 0 None true) (DInt (-1)) (TPrim (PInt 4)) (
  (* timestamp *) FCons (mkctx 0 32767 6 32767 0 0 0 0 None false) DNone (TPrim (PInt 8)) (
  (* maxNumOffsets *) FCons (mkctx 0 0 6 32767 0 0 0 0 None false) (DInt 1) (TPrim (PInt 4)) (
  FNil))))).
(* messages/listoffsets/request/listoffsetstopic.go *)
Definition s_listoffsets_request_ListOffsetsTopic : sch := Sch 6 32767 (
  (* name *) FCons (mkctx 0 32767 6 32767 0 0 0 0 None false) DNone (TPrim PStr) (
  (* partitions *) FCons (mkctx 0 32767 6 32767 0 0 0 0 None false) DNone (TArrS s_listoffsets_request_listoffsetstopic_ListOffsetsPartition) (
  FNil))).
(* messages/listoffsets/request.go *)
Definition s_listoffsets_Request : sch := Sch 6 32767 (
  (* replicaId *) FCons (mkctx 0 32767 6 32767 0 0 0 0 None false) DNone (TPrim (PInt 4)) (
  (* isolationLevel *) FCons (mkctx 2 32767 6 32767 0 0 0 0 None false) DNone (TPrim (PInt 1)) (
  (* topics *) FCons (mkctx 0 32767 6 32767 0 0 0 0 None false) DNone (TArrS s_listoffsets_request_ListOffsetsTopic) (
  FNil)))).
(* messages/listoffsets/response/listoffsetstopicresponse/listoffsetspartitionresponse.go *)
Definition s_listoffsets_response_listoffsetstopicresponse_ListOffsetsPartitionResponse : sch := Sch 6 32767 (
  (* partitionIndex *) FCons (mkctx 0 32767 6 32767 0 0 0 0 None false) DNone (TPrim (PInt 4)) (
  (* errorCode *) FCons (mkctx 0 32767 6 32767 0 0 0 0 None false) DNone (TPrim (PInt 2)) (
  (* oldStyleOffsets *) FCons (mkctx 0 0 6 32767 0 0 0 0 None false) DNone (TArr (PInt 8)) (
  (* timestamp *) FCons (mkctx 1 32767 6 32767 0 0 0 0 None false) (DInt (-1)) (TPrim (PInt 8)) (
  (* offset *) FCons (mkctx 1 32767 6 32767 0 0 0 0 None false) (DInt (-1)) (TPrim (PInt 8)) (
  (* leaderEpoch *) FCons (mkctx 4 32767 6 32767 0 0 0 0 None false) (DInt (-1)) (TPrim (PInt 4)) (
  FNil))))))).
(* messages/listoffsets/response/listoffsetstopicresponse.go *)
Definition s_listoffsets_response_ListOffsetsTopicResponse : sch := Sch 6 32767 (
  (* name *) FCons (mkctx 0 32767 6 32767 0 0 0 0 None false) DNone (TPrim PStr) (
  (* partitions *) FCons (mkctx 0 32767 6 32767 0 0 0 0 None false) DNone (TArrS s_listoffsets_response_listoffsetstopicresponse_ListOffsetsPartitionResponse) (
  FNil))).
(* messages/listoffsets/response.go *)
Definition s_listoffsets_Response : sch := Sch 6 32767 (
  (* throttleTimeMs *) FCons (mkctx 2 32767 6 32767 0 0 0 0 None true) DNone (TPrim (PInt 4)) (
  (* topics *) FCons (mkctx 0 32767 6 32767 0 0 0 0 None false) DNone (TArrS s_listoffsets_response_ListOffsetsTopicResponse) (
  FNil))).
(* messages/listpartitionreassignments/request/listpartitionreassignmentstopics.go *)
Definition s_listpartitionreassignments_request_ListPartitionReassignmentsTopics : sch := Sch 0 32767 (
  (* name *) FCons (mkctx 0 32767 0 32767 0 32767 0 0 None false) DNone (TPrim PStr) (
  (* partitionIndexes *) FCons (mkctx 0 32767 0 32767 0 32767 0 0 None false) DNone (TArr (PInt 4)) (
  FNil))).
(* messages/listpartitionreassignments/request.go *)
Definition s_listpartitionreassignments_Request : sch := Sch 0 32767 (
  (* timeoutMs *) FCons (mkctx 0 32767 0 32767 0 0 0 0 None false) (DInt 60000) (TPrim (PInt 4)) (
  (* topics *) FCons (mkctx 0 32767 0 32767 0 32767 0 0 None false) DNone (TArrS s_listpartitionreassignments_request_ListPartitionReassignmentsTopics) (
  FNil))).
(* messages/listpartitionreassignments/response/ongoingtopicreassignment/ongoingpartitionreassignment.go *)
Definition s_listpartitionreassignments_response_ongoingtopicreassignment_OngoingPartitionReassignment : sch := Sch 0 32767 (
  (* partitionIndex *) FCons (mkctx 0 32767 0 32767 0 0 0 0 None false) DNone (TPrim (PInt 4)) (
  (* replicas *) FCons (mkctx 0 32767 0 32767 0 0 0 0 None false) DNone (TArr (PInt 4)) (
  (* addingReplicas *) FCons (mkctx 0 32767 0 32767 0 0 0 0 None false) DNone (TArr (PInt 4)) (
  (* removingReplicas *) FCons (mkctx 0 32767 0 32767 0 0 0 0 None false) DNone (TArr (PInt 4)) (
  FNil))))).
(* messages/listpartitionreassignments/response/ongoingtopicreassignment.go *)
Definition s_listpartitionreassignments_response_OngoingTopicReassignment : sch := Sch 0 32767 (
  (* name *) FCons (mkctx 0 32767 0 32767 0 0 0 0 None false) DNone (TPrim PStr) (
  (* partitions *) FCons (mkctx 0 32767 0 32767 0 0 0 0 None false) DNone (TArrS s_listpartitionreassignments_response_ongoingtopicreassignment_OngoingPartitionReassignment) (
  FNil))).
(* messages/listpartitionreassignments/response.go *)
Definition s_listpartitionreassignments_Response : sch := Sch 0 32767 (
  (* throttleTimeMs *) FCons (mkctx 0 32767 0 32767 0 0 0 0 None false) DNone (TPrim (PInt 4)) (
  (* errorCode *) FCons (mkctx 0 32767 0 32767 0 0 0 0 None false) DNone (TPrim (PInt 2)) (
  (* errorMessage *) FCons (mkctx 0 32767 0 32767 0 32767 0 0 None false) DNone (TPrim PStr) (
  (* topics *) FCons (mkctx 0 32767 0 32767 0 0 0 0 None false) DNone (TArrS s_listpartitionreassignments_response_OngoingTopicReassignment) (
  FNil))))).
(* messages/listtransactions/request.go *)
Definition s_listtransactions_Request : sch := Sch 0 32767 (
  (* stateFilters *) FCons (mkctx 0 32767 0 32767 0 0 0 0 None false) DNone (TArr PStr) (
  (* producerIdFilters *) FCons (mkctx 0 32767 0 32767 0 0 0 0 None false) DNone (TArr (PInt 8)) (
  FNil))).
(* messages/listtransactions/response/transactionstate.go *)
Definition s_listtransactions_response_TransactionState : sch := Sch 0 32767 (
  (* transactionalId *) FCons (mkctx 0 32767 0 32767 0 0 0 0 None false) DNone (TPrim PStr) (
  (* producerId *) FCons (mkctx 0 32767 0 32767 0 0 0 0 None false) DNone (TPrim (PInt 8)) (
  (* transactionState *) FCons (mkctx 0 32767 0 32767 0 0 0 0 None false) DNone (TPrim PStr) (
  FNil)))).
(* messages/listtransactions/response.go *)
Definition s_listtransactions_Response : sch := Sch 0 32767 (
  (* throttleTimeMs *) FCons (mkctx 0 32767 0 32767 0 0 0 0 None false) DNone (TPrim (PInt 4)) (
  (* errorCode *) FCons (mkctx 0 32767 0 32767 0 0 0 0 None false) DNone (TPrim (PInt 2)) (
  (* unknownStateFilters *) FCons (mkctx 0 32767 0 32767 0 0 0 0 None false) DNone (TArr PStr) (
  (* transactionStates *) FCons (mkctx 0 32767 0 32767 0 0 0 0 None false) DNone (TArrS s_listtransactions_response_TransactionState) (
  FNil))))).
(* messages/metadata/request/metadatarequesttopic.go *)
Definition s_metadata_request_MetadataRequestTopic : sch := Sch 9 32767 (
  (* topicId *) FCons (mkctx 10 32767 9 32767 1 32767 0 0 None true) DNone (TPrim PUuid) (
  (* name *) FCons (mkctx 0 32767 9 32767 10 32767 0 0 None false) DNone (TPrim PStr) (
  FNil))).
(* messages/metadata/request.go *)
Definition s_metadata_Request : sch := Sch 9 32767 (
  (* topics *) FCons (mkctx 0 32767 9 32767 1 32767 0 0 None false) DNone (TArrS s_metadata_request_MetadataRequestTopic) (
  (* allowAutoTopicCreation *) FCons (mkctx 4 32767 9 32767 0 0 0 0 None false) (DBool true) (TPrim PBool) (
  (* includeClusterAuthorizedOperations *) FCons (mkctx 8 10 9 32767 0 0 0 0 None false) DNone (TPrim PBool) (
  (* includeTopicAuthorizedOperations *) FCons (mkctx 8 32767 9 32767 0 0 0 0 None false) DNone (TPrim PBool) (
  FNil))))).
(* messages/metadata/response/metadataresponsebroker.go *)
Definition s_metadata_response_MetadataResponseBroker : sch := Sch 9 32767 (
  (* nodeId *) FCons (mkctx 0 32767 9 32767 0 0 0 0 None false) DNone (TPrim (PInt 4)) (
  (* host *) FCons (mkctx 0 32767 9 32767 0 0 0 0 None false) DNone (TPrim PStr) (
  (* port *) FCons (mkctx 0 32767 9 32767 0 0 0 0 None false) DNone (TPrim (PInt 4)) (
  (* rack *) FCons (mkctx 1 32767 9 32767 1 32767 0 0 None true) (DStr null_text) (TPrim PStr) (
  FNil))))).
(* messages/metadata/response/metadataresponsetopic/metadataresponsepartition.go *)
Definition s_metadata_response_metadataresponsetopic_MetadataResponsePartition : sch := Sch 9 32767 (
  (* errorCode *) FCons (mkctx 0 32767 9 32767 0 0 0 0 None false) DNone (TPrim (PInt 2)) (
  (* partitionIndex *) FCons (mkctx 0 32767 9 32767 0 0 0 0 None false) DNone (TPrim (PInt 4)) (
  (* leaderId *) FCons (mkctx 0 32767 9 32767 0 0 0 0 None false) DNone (TPrim (PInt 4)) (
  (* leaderEpoch *) FCons (mkctx 7 32767 9 32767 0 0 0 0 None true) (DInt (-1)) (TPrim (PInt 4)) (
  (* replicaNodes *) FCons (mkctx 0 32767 9 32767 0 0 0 0 None false) DNone (TArr (PInt 4)) (
  (* isrNodes *) FCons (mkctx 0 32767 9 32767 0 0 0 0 None false) DNone (TArr (PInt 4)) (
  (* offlineReplicas *) FCons (mkctx 5 32767 9 32767 0 0 0 0 None true) DNone (TArr (PInt 4)) (
  FNil)))))))).
(* messages/metadata/response/metadataresponsetopic.go *)
Definition s_metadata_response_MetadataResponseTopic : sch := Sch 9 32767 (
  (* errorCode *) FCons (mkctx 0 32767 9 32767 0 0 0 0 None false) DNone (TPrim (PInt 2)) (
  (* name *) FCons (mkctx 0 32767 9 32767 12 32767 0 0 None false) DNone (TPrim PStr) (
  (* topicId *) FCons (mkctx 10 32767 9 32767 0 0 0 0 None true) DNone (TPrim PUuid) (
  (* isInternal *) FCons (mkctx 1 32767 9 32767 0 0 0 0 None true) DNone (TPrim PBool) (
  (* partitions *) FCons (mkctx 0 32767 9 32767 0 0 0 0 None false) DNone (TArrS s_metadata_response_metadataresponsetopic_MetadataResponsePartition) (
  (* topicAuthorizedOperations *) FCons (mkctx 8 32767 9 32767 0 0 0 0 None false) (DInt (-2147483648)) (TPrim (PInt 4)) (
  FNil))))))).
(* messages/metadata/response.go *)
Definition s_metadata_Response : sch := Sch 9 32767 (
  (* throttleTimeMs *) FCons (mkctx 3 32767 9 32767 0 0 0 0 None true) DNone (TPrim (PInt 4)) (
  (* brokers *) FCons (mkctx 0 32767 9 32767 0 0 0 0 None false) DNone (TArrS s_metadata_response_MetadataResponseBroker) (
  (* clusterId *) FCons (mkctx 2 32767 9 32767 2 32767 0 0 None true) (DStr null_text) (TPrim PStr) (
  (* controllerId *) FCons (mkctx 1 32767 9 32767 0 0 0 0 None true) (DInt (-1)) (TPrim (PInt 4)) (
  (* topics *) FCons (mkctx 0 32767 9 32767 0 0 0 0 None false) DNone (TArrS s_metadata_response_MetadataResponseTopic) (
  (* clusterAuthorizedOperations *) FCons (mkctx 8 10 9 32767 0 0 0 0 None false) (DInt (-2147483648)) (TPrim (PInt 4)) (
  FNil))))))).
(* messages/offsetcommit/request/offsetcommitrequesttopic/offsetcommitrequestpartition.go *)
Definition s_offsetcommit_request_offsetcommitrequesttopic_OffsetCommitRequestPartition : sch := Sch 8 32767 (
  (* partitionIndex *) FCons (mkctx 0 32767 8 32767 0 0 0 0 None false) DNone (TPrim (PInt 4)) (
  (* committedOffset *) FCons (mkctx 0 32767 8 32767 0 0 0 0 None false) DNone (TPrim (PInt 8)) (
  (* committedLeaderEpoch *) FCons (mkctx 6 32767 8 32767 0 0 0 0 None true) (DInt (-1)) (TPrim (PInt 4)) (
  (* commitTimestamp *) FCons (mkctx 1 1 8 32767 0 0 0 0 None false) (DInt (-1)) (TPrim (PInt 8)) (
  (* committedMetadata *) FCons (mkctx 0 32767 8 32767 0 32767 0 0 None false) DNone (TPrim PStr) (
  FNil)))))).
(* messages/offsetcommit/request/offsetcommitrequesttopic.go *)
Definition s_offsetcommit_request_OffsetCommitRequestTopic : sch := Sch 8 32767 (
  (* name *) FCons (mkctx 0 32767 8 32767 0 0 0 0 None false) DNone (TPrim PStr) (
  (* partitions *) FCons (mkctx 0 32767 8 32767 0 0 0 0 None false) DNone (TArrS s_offsetcommit_request_offsetcommitrequesttopic_OffsetCommitRequestPartition) (
  FNil))).
(* messages/offsetcommit/request.go *)
Definition s_offsetcommit_Request : sch := Sch 8 32767 (
  (* groupId *) FCons (mkctx 0 32767 8 32767 0 0 0 0 None false) DNone (TPrim PStr) (
  (* generationId *) FCons (mkctx 1 32767 8 32767 0 0 0 0 None true) (DInt (-1)) (TPrim (PInt 4)) (
  (* memberId *) FCons (mkctx 1 32767 8 32767 0 0 0 0 None true) DNone (TPrim PStr) (
  (* groupInstanceId *) FCons (mkctx 7 32767 8 32767 7 32767 0 0 None false) (DStr null_text) (TPrim PStr) (
  (* retentionTimeMs *) FCons (mkctx 2 4 8 32767 0 0 0 0 None true) (DInt (-1)) (TPrim (PInt 8)) (
  (* topics *) FCons (mkctx 0 32767 8 32767 0 0 0 0 None false) DNone (TArrS s_offsetcommit_request_OffsetCommitRequestTopic) (
  FNil))))))).
(* messages/offsetcommit/response/offsetcommitresponsetopic/offsetcommitresponsepartition.go *)
Definition s_offsetcommit_response_offsetcommitresponsetopic_OffsetCommitResponsePartition : sch := Sch 8 32767 (
  (* partitionIndex *) FCons (mkctx 0 32767 8 32767 0 0 0 0 None false) DNone (TPrim (PInt 4)) (
  (* errorCode *) FCons (mkctx 0 32767 8 32767 0 0 0 0 None false) DNone (TPrim (PInt 2)) (
  FNil))).
(* messages/offsetcommit/response/offsetcommitresponsetopic.go *)
Definition s_offsetcommit_response_OffsetCommitResponseTopic : sch := Sch 8 32767 (
  (* name *) FCons (mkctx 0 32767 8 32767 0 0 0 0 None false) DNone (TPrim PStr) (
  (* partitions *) FCons (mkctx 0 32767 8 32767 0 0 0 0 None false) DNone (TArrS s_offsetcommit_response_offsetcommitresponsetopic_OffsetCommitResponsePartition) (
  FNil))).
(* messages/offsetcommit/response.go *)
Definition s_offsetcommit_Response : sch := Sch 8 32767 (
  (* throttleTimeMs *) FCons (mkctx 3 32767 8 32767 0 0 0 0 None true) DNone (TPrim (PInt 4)) (
  (* topics *) FCons (mkctx 0 32767 8 32767 0 0 0 0 None false) DNone (TArrS s_offsetcommit_response_OffsetCommitResponseTopic) (
  FNil))).
(* messages/offsetdelete/request/offsetdeleterequesttopic/offsetdeleterequestpartition.go *)
Definition s_offsetdelete_request_offsetdeleterequesttopic_OffsetDeleteRequestPartition : sch := Sch 32767 32767 (
  (* partitionIndex *) FCons (mkctx 0 32767 32767 32767 0 0 0 0 None false) DNone (TPrim (PInt 4)) (
  FNil)).
(* messages/offsetdelete/request/offsetdeleterequesttopic.go *)
Definition s_offsetdelete_request_OffsetDeleteRequestTopic : sch := Sch 32767 32767 (
  (* name *) FCons (mkctx 0 32767 32767 32767 0 0 0 0 None false) DNone (TPrim PStr) (
  (* partitions *) FCons (mkctx 0 32767 32767 32767 0 0 0 0 None false) DNone (TArrS s_offsetdelete_request_offsetdeleterequesttopic_OffsetDeleteRequestPartition) (
  FNil))).
(* messages/offsetdelete/request.go *)
Definition s_offsetdelete_Request : sch := Sch 32767 32767 (
  (* groupId *) FCons (mkctx 0 32767 32767 32767 0 0 0 0 None false) DNone (TPrim PStr) (
  (* topics *) FCons (mkctx 0 32767 32767 32767 0 0 0 0 None false) DNone (TArrS s_offsetdelete_request_OffsetDeleteRequestTopic) (
  FNil))).
(* messages/offsetdelete/response/offsetdeleteresponsetopic/offsetdeleteresponsepartition.go *)
Definition s_offsetdelete_response_offsetdeleteresponsetopic_OffsetDeleteResponsePartition : sch := Sch 32767 32767 (
  (* partitionIndex *) FCons (mkctx 0 32767 32767 32767 0 0 0 0 None false) DNone (TPrim (PInt 4)) (
  (* errorCode *) FCons (mkctx 0 32767 32767 32767 0 0 0 0 None false) DNone (TPrim (PInt 2)) (
  FNil))).
(* messages/offsetdelete/response/offsetdeleteresponsetopic.go *)
Definition s_offsetdelete_response_OffsetDeleteResponseTopic : sch := Sch 32767 32767 (
  (* name *) FCons (mkctx 0 32767 32767 32767 0 0 0 0 None false) DNone (TPrim PStr) (
  (* partitions *) FCons (mkctx 0 32767 32767 32767 0 0 0 0 None false) DNone (TArrS s_offsetdelete_response_offsetdeleteresponsetopic_OffsetDeleteResponsePartition) (
  FNil))).
(* messages/offsetdelete/response.go *)
Definition s_offsetdelete_Response : sch := Sch 32767 32767 (
  (* errorCode *) FCons (mkctx 0 32767 32767 32767 0 0 0 0 None false) DNone (TPrim (PInt 2)) (
  (* throttleTimeMs *) FCons (mkctx 0 32767 32767 32767 0 0 0 0 None false) DNone (TPrim (PInt 4)) (
  (* topics *) FCons (mkctx 0 32767 32767 32767 0 0 0 0 None false) DNone (TArrS s_offsetdelete_response_OffsetDeleteResponseTopic) (
  FNil)))).
(* messages/offsetfetch/request/offsetfetchrequesttopic.go *)
Definition s_offsetfetch_request_OffsetFetchRequestTopic : sch := Sch 6 32767 (
  (* name *) FCons (mkctx 0 7 6 32767 2 7 0 0 None false) DNone (TPrim PStr) (
  (* partitionIndexes *) FCons (mkctx 0 7 6 32767 2 7 0 0 None false) DNone (TArr (PInt 4)) (
  FNil))).
(* messages/offsetfetch/request/offsetfetchrequestgroup/offsetfetchrequesttopics.go *)
Definition s_offsetfetch_request_offsetfetchrequestgroup_OffsetFetchRequestTopics : sch := Sch 6 32767 (
  (* name *) FCons (mkctx 8 32767 6 32767 8 32767 0 0 None false) DNone (TPrim PStr) (
  (* partitionIndexes *) FCons (mkctx 8 32767 6 32767 8 32767 0 0 None false) DNone (TArr (PInt 4)) (
  FNil))).
(* messages/offsetfetch/request/offsetfetchrequestgroup.go *)
Definition s_offsetfetch_request_OffsetFetchRequestGroup : sch := Sch 6 32767 (
  (* groupId *) FCons (mkctx 8 32767 6 32767 0 0 0 0 None false) DNone (TPrim PStr) (
  (* topics *) FCons (mkctx 8 32767 6 32767 8 32767 0 0 None false) DNone (TArrS s_offsetfetch_request_offsetfetchrequestgroup_OffsetFetchRequestTopics) (
  FNil))).
(* messages/offsetfetch/request.go *)
Definition s_offsetfetch_Request : sch := Sch 6 32767 (
  (* groupId *) FCons (mkctx 0 7 6 32767 0 0 0 0 None false) DNone (TPrim PStr) (
  (* topics *) FCons (mkctx 0 7 6 32767 2 7 0 0 None false) DNone (TArrS s_offsetfetch_request_OffsetFetchRequestTopic) (
  (* groups *) FCons (mkctx 8 32767 6 32767 0 0 0 0 None false) DNone (TArrS s_offsetfetch_request_OffsetFetchRequestGroup) (
  (* requireStable *) FCons (mkctx 7 32767 6 32767 0 0 0 0 None false) DNone (TPrim PBool) (
  FNil))))).
(* messages/offsetfetch/response/offsetfetchresponsetopic/offsetfetchresponsepartition.go *)
Definition s_offsetfetch_response_offsetfetchresponsetopic_OffsetFetchResponsePartition : sch := Sch 6 32767 (
  (* partitionIndex *) FCons (mkctx 0 7 6 32767 0 0 0 0 None false) DNone (TPrim (PInt 4)) (
  (* committedOffset *) FCons (mkctx 0 7 6 32767 0 0 0 0 None false) DNone (TPrim (PInt 8)) (
  (* committedLeaderEpoch *) FCons (mkctx 5 7 6 32767 0 0 0 0 None true) (DInt (-1)) (TPrim (PInt 4)) (
  (* metadata *) FCons (mkctx 0 7 6 32767 0 7 0 0 None false) DNone (TPrim PStr) (
  (* errorCode *) FCons (mkctx 0 7 6 32767 0 0 0 0 None false) DNone (TPrim (PInt 2)) (
  FNil)))))).
(* messages/offsetfetch/response/offsetfetchresponsetopic.go *)
Definition s_offsetfetch_response_OffsetFetchResponseTopic : sch := Sch 6 32767 (
  (* name *) FCons (mkctx 0 7 6 32767 0 0 0 0 None false) DNone (TPrim PStr) (
  (* partitions *) FCons (mkctx 0 7 6 32767 0 0 0 0 None false) DNone (TArrS s_offsetfetch_response_offsetfetchresponsetopic_OffsetFetchResponsePartition) (
  FNil))).
(* messages/offsetfetch/response/offsetfetchresponsegroup/offsetfetchresponsetopics/offsetfetchresponsepartitions.go *)
Definition s_offsetfetch_response_offsetfetchresponsegroup_offsetfetchresponsetopics_OffsetFetchResponsePartitions : sch := Sch 6 32767 (
  (* partitionIndex *) FCons (mkctx 8 32767 6 32767 0 0 0 0 None false) DNone (TPrim (PInt 4)) (
  (* committedOffset *) FCons (mkctx 8 32767 6 32767 0 0 0 0 None false) DNone (TPrim (PInt 8)) (
  (* committedLeaderEpoch *) FCons (mkctx 8 32767 6 32767 0 0 0 0 None true) (DInt (-1)) (TPrim (PInt 4)) (
  (* metadata *) FCons (mkctx 8 32767 6 32767 8 32767 0 0 None false) DNone (TPrim PStr) (
  (* errorCode *) FCons (mkctx 8 32767 6 32767 0 0 0 0 None false) DNone (TPrim (PInt 2)) (
  FNil)))))).
(* messages/offsetfetch/response/offsetfetchresponsegroup/offsetfetchresponsetopics.go *)
Definition s_offsetfetch_response_offsetfetchresponsegroup_OffsetFetchResponseTopics : sch := Sch 6 32767 (
  (* name *) FCons (mkctx 8 32767 6 32767 0 0 0 0 None false) DNone (TPrim PStr) (
  (* partitions *) FCons (mkctx 8 32767 6 32767 0 0 0 0 None false) DNone (TArrS s_offsetfetch_response_offsetfetchresponsegroup_offsetfetchresponsetopics_OffsetFetchResponsePartitions) (
  FNil))).
(* messages/offsetfetch/response/offsetfetchresponsegroup.go *)
Definition s_offsetfetch_response_OffsetFetchResponseGroup : sch := Sch 6 32767 (
  (* groupId *) FCons (mkctx 8 32767 6 32767 0 0 0 0 None false) DNone (TPrim PStr) (
  (* topics *) FCons (mkctx 8 32767 6 32767 0 0 0 0 None false) DNone (TArrS s_offsetfetch_response_offsetfetchresponsegroup_OffsetFetchResponseTopics) (
  (* errorCode *) FCons (mkctx 8 32767 6 32767 0 0 0 0 None false) DNone (TPrim (PInt 2)) (
  FNil)))).
(* messages/offsetfetch/response.go *)
Definition s_offsetfetch_Response : sch := Sch 6 32767 (
  (* throttleTimeMs *) FCons (mkctx 3 32767 6 32767 0 0 0 0 None true) DNone (TPrim (PInt 4)) (
  (* topics *) FCons (mkctx 0 7 6 32767 0 0 0 0 None false) DNone (TArrS s_offsetfetch_response_OffsetFetchResponseTopic) (
  (* errorCode *) FCons (mkctx 2 7 6 32767 0 0 0 0 None true) DNone (TPrim (PInt 2)) (
  (* groups *) FCons (mkctx 8 32767 6 32767 0 0 0 0 None false) DNone (TArrS s_offsetfetch_response_OffsetFetchResponseGroup) (
  FNil))))).
(* messages/offsetforleaderepoch/request/offsetforleadertopic/offsetforleaderpartition.go *)
Definition s_offsetforleaderepoch_request_offsetforleadertopic_OffsetForLeaderPartition : sch := Sch 4 32767 (
  (* partition *) FCons (mkctx 0 32767 4 32767 0 0 0 0 None false) DNone (TPrim (PInt 4)) (
  (* currentLeaderEpoch *) FCons (mkctx 2 32767 4 32767 0 0 0 0 None true) (DInt (-1)) (TPrim (PInt 4)) (
  (* leaderEpoch *) FCons (mkctx 0 32767 4 32767 0 0 0 0 None false) DNone (TPrim (PInt 4)) (
  FNil)))).
(* messages/offsetforleaderepoch/request/offsetforleadertopic.go *)
Definition s_offsetforleaderepoch_request_OffsetForLeaderTopic : sch := Sch 4 32767 (
  (* topic *) FCons (mkctx 0 32767 4 32767 0 0 0 0 None false) DNone (TPrim PStr) (
  (* partitions *) FCons (mkctx 0 32767 4 32767 0 0 0 0 None false) DNone (TArrS s_offsetforleaderepoch_request_offsetforleadertopic_OffsetForLeaderPartition) (
  FNil))).
(* messages/offsetforleaderepoch/request.go *)
Definition s_offsetforleaderepoch_Request : sch := Sch 4 32767 (
  (* replicaId *) FCons (mkctx 3 32767 4 32767 0 0 0 0 None true) (DInt (-2)) (TPrim (PInt 4)) (
  (* topics *) FCons (mkctx 0 32767 4 32767 0 0 0 0 None false) DNone (TArrS s_offsetforleaderepoch_request_OffsetForLeaderTopic) (
  FNil))).
(* messages/offsetforleaderepoch/response/offsetforleadertopicresult/epochendoffset.go *)
Definition s_offsetforleaderepoch_response_offsetforleadertopicresult_EpochEndOffset : sch := Sch 4 32767 (
  (* errorCode *) FCons (mkctx 0 32767 4 32767 0 0 0 0 None false) DNone (TPrim (PInt 2)) (
  (* partition *) FCons (mkctx 0 32767 4 32767 0 0 0 0 None false) DNone (TPrim (PInt 4)) (
  (* leaderEpoch *) FCons (mkctx 1 32767 4 32767 0 0 0 0 None true) (DInt (-1)) (TPrim (PInt 4)) (
  (* endOffset *) FCons (mkctx 0 32767 4 32767 0 0 0 0 None false) (DInt (-1)) (TPrim (PInt 8)) (
  FNil))))).
(* messages/offsetforleaderepoch/response/offsetforleadertopicresult.go *)
Definition s_offsetforleaderepoch_response_OffsetForLeaderTopicResult : sch := Sch 4 32767 (
  (* topic *) FCons (mkctx 0 32767 4 32767 0 0 0 0 None false) DNone (TPrim PStr) (
  (* partitions *) FCons (mkctx 0 32767 4 32767 0 0 0 0 None false) DNone (TArrS s_offsetforleaderepoch_response_offsetforleadertopicresult_EpochEndOffset) (
  FNil))).
(* messages/offsetforleaderepoch/response.go *)
Definition s_offsetforleaderepoch_Response : sch := Sch 4 32767 (
  (* throttleTimeMs *) FCons (mkctx 2 32767 4 32767 0 0 0 0 None true) DNone (TPrim (PInt 4)) (
  (* topics *) FCons (mkctx 0 32767 4 32767 0 0 0 0 None false) DNone (TArrS s_offsetforleaderepoch_response_OffsetForLeaderTopicResult) (
  FNil))).
(* messages/produce/request/topicproducedata/partitionproducedata.go *)
Definition s_produce_request_topicproducedata_PartitionProduceData : sch := Sch 9 32767 (
  (* index *) FCons (mkctx 0 32767 9 32767 0 0 0 0 None false) DNone (TPrim (PInt 4)) (
  (* records *) FCons (mkctx 0 32767 9 32767 0 32767 0 0 None false) DNone (TPrim PRec) (
  FNil))).
(* messages/produce/request/topicproducedata.go *)
Definition s_produce_request_TopicProduceData : sch := Sch 9 32767 (
  (* name *) FCons (mkctx 0 32767 9 32767 0 0 0 0 None false) DNone (TPrim PStr) (
  (* partitionData *) FCons (mkctx 0 32767 9 32767 0 0 0 0 None false) DNone (TArrS s_produce_request_topicproducedata_PartitionProduceData) (
  FNil))).
(* messages/produce/request.go *)
Definition s_produce_Request : sch := Sch 9 32767 (
  (* transactionalId *) FCons (mkctx 3 32767 9 32767 3 32767 0 0 None false) (DStr null_text) (TPrim PStr) (
  (* acks *) FCons (mkctx 0 32767 9 32767 0 0 0 0 None false) DNone (TPrim (PInt 2)) (
  (* timeoutMs *) FCons (mkctx 0 32767 9 32767 0 0 0 0 None false) DNone (TPrim (PInt 4)) (
  (* topicData *) FCons (mkctx 0 32767 9 32767 0 0 0 0 None false) DNone (TArrS s_produce_request_TopicProduceData) (
  FNil))))).
(* messages/produce/response/topicproduceresponse/partitionproduceresponse/batchindexanderrormessage.go *)
Definition s_produce_response_topicproduceresponse_partitionproduceresponse_BatchIndexAndErrorMessage : sch := Sch 9 32767 (
  (* batchIndex *) FCons (mkctx 8 32767 9 32767 0 0 0 0 None false) DNone (TPrim (PInt 4)) (
  (* batchIndexErrorMessage *) FCons (mkctx 8 32767 9 32767 8 32767 0 0 None false) (DStr null_text) (TPrim PStr) (
  FNil))).
(* messages/produce/response/topicproduceresponse/partitionproduceresponse.go *)
Definition s_produce_response_topicproduceresponse_PartitionProduceResponse : sch := Sch 9 32767 (
  (* index *) FCons (mkctx 0 32767 9 32767 0 0 0 0 None false) DNone (TPrim (PInt 4)) (
  (* errorCode *) FCons (mkctx 0 32767 9 32767 0 0 0 0 None false) DNone (TPrim (PInt 2)) (
  (* baseOffset *) FCons (mkctx 0 32767 9 32767 0 0 0 0 None false) DNone (TPrim (PInt 8)) (
  (* logAppendTimeMs *) FCons (mkctx 2 32767 9 32767 0 0 0 0 None true) (DInt (-1)) (TPrim (PInt 8)) (
  (* logStartOffset *) FCons (mkctx 5 32767 9 32767 0 0 0 0 None true) (DInt (-1)) (TPrim (PInt 8)) (
  (* recordErrors *) FCons (mkctx 8 32767 9 32767 0 0 0 0 None true) DNone (TArrS s_produce_response_topicproduceresponse_partitionproduceresponse_BatchIndexAndErrorMessage) (
  (* errorMessage *) FCons (mkctx 8 32767 9 32767 8 32767 0 0 None true) (DStr null_text) (TPrim PStr) (
  FNil)))))))).
(* messages/produce/response/topicproduceresponse.go *)
Definition s_produce_response_TopicProduceResponse : sch := Sch 9 32767 (
  (* name *) FCons (mkctx 0 32767 9 32767 0 0 0 0 None false) DNone (TPrim PStr) (
  (* partitionResponses *) FCons (mkctx 0 32767 9 32767 0 0 0 0 None false) DNone (TArrS s_produce_response_topicproduceresponse_PartitionProduceResponse) (
  FNil))).
(* messages/produce/response.go *)
Definition s_produce_Response : sch := Sch 9 32767 (
  (* responses *) FCons (mkctx 0 32767 9 32767 0 0 0 0 None false) DNone (TArrS s_produce_response_TopicProduceResponse) (
  (* throttleTimeMs *) FCons (mkctx 1 32767 9 32767 0 0 0 0 None true) DNone (TPrim (PInt 4)) (
  FNil))).
(* messages/renewdelegationtoken/request.go *)
Definition s_renewdelegationtoken_Request : sch := Sch 2 32767 (
  (* hmac *) FCons (mkctx 0 32767 2 32767 0 0 0 0 None false) DNone (TPrim PBytes) (
  (* renewPeriodMs *) FCons (mkctx 0 32767 2 32767 0 0 0 0 None false) DNone (TPrim (PInt 8)) (
  FNil))).
(* messages/renewdelegationtoken/response.go *)
Definition s_renewdelegationtoken_Response : sch := Sch 2 32767 (
  (* errorCode *) FCons (mkctx 0 32767 2 32767 0 0 0 0 None false) DNone (TPrim (PInt 2)) (
  (* expiryTimestampMs *) FCons (mkctx 0 32767 2 32767 0 0 0 0 None false) DNone (TPrim (PInt 8)) (
  (* throttleTimeMs *) FCons (mkctx 0 32767 2 32767 0 0 0 0 None false) DNone (TPrim (PInt 4)) (
  FNil)))).
(* messages/request/header.go *)
Definition s_request_Header : sch := Sch 2 32767 (
  (* requestApiKey *) FCons (mkctx 0 32767 2 32767 0 0 0 0 None false) DNone (TPrim (PInt 2)) (
  (* requestApiVersion *) FCons (mkctx 0 32767 2 32767 0 0 0 0 None false) DNone (TPrim (PInt 2)) (
  (* correlationId *) FCons (mkctx 0 32767 2 32767 0 0 0 0 None false) DNone (TPrim (PInt 4)) (
  (* clientId *) FCons (mkctx 1 32767 32767 32767 1 32767 0 0 None true) DNone (TPrim PStr) (
  FNil))))).
(* messages/response/header.go *)
Definition s_response_Header : sch := Sch 1 32767 (
  (* correlationId *) FCons (mkctx 0 32767 1 32767 0 0 0 0 None false) DNone (TPrim (PInt 4)) (
  FNil)).
(* messages/saslauthenticate/request.go *)
Definition s_saslauthenticate_Request : sch := Sch 2 32767 (
  (* authBytes *) FCons (mkctx 0 32767 2 32767 0 0 0 0 None false) DNone (TPrim PBytes) (
  FNil)).
(* messages/saslauthenticate/response.go *)
Definition s_saslauthenticate_Response : sch := Sch 2 32767 (
  (* errorCode *) FCons (mkctx 0 32767 2 32767 0 0 0 0 None false) DNone (TPrim (PInt 2)) (
  (* errorMessage *) FCons (mkctx 0 32767 2 32767 0 32767 0 0 None false) DNone (TPrim PStr) (
  (* authBytes *) FCons (mkctx 0 32767 2 32767 0 0 0 0 None false) DNone (TPrim PBytes) (
  (* sessionLifetimeMs *) FCons (mkctx 1 32767 2 32767 0 0 0 0 None true) DNone (TPrim (PInt 8)) (
  FNil))))).
(* messages/saslhandshake/request.go *)
Definition s_saslhandshake_Request : sch := Sch 32767 32767 (
  (* mechanism *) FCons (mkctx 0 32767 32767 32767 0 0 0 0 None false) DNone (TPrim PStr) (
  FNil)).
(* messages/saslhandshake/response.go *)
Definition s_saslhandshake_Response : sch := Sch 32767 32767 (
  (* errorCode *) FCons (mkctx 0 32767 32767 32767 0 0 0 0 None false) DNone (TPrim (PInt 2)) (
  (* mechanisms *) FCons (mkctx 0 32767 32767 32767 0 0 0 0 None false) DNone (TArr PStr) (
  FNil))).
(* messages/stopreplica/request/stopreplicapartitionv0.go *)
Definition s_stopreplica_request_StopReplicaPartitionV0 : sch := Sch 2 32767 (
  (* topicName *) FCons (mkctx 0 0 2 32767 0 0 0 0 None false) DNone (TPrim PStr) (
  (* partitionIndex *) FCons (mkctx 0 0 2 32767 0 0 0 0 None false) DNone (TPrim (PInt 4)) (
  FNil))).
(* messages/stopreplica/request/stopreplicatopicv1.go *)
Definition s_stopreplica_request_StopReplicaTopicV1 : sch := Sch 2 32767 (
  (* name *) FCons (mkctx 1 2 2 32767 0 0 0 0 None false) DNone (TPrim PStr) (
  (* partitionIndexes *) FCons (mkctx 1 2 2 32767 0 0 0 0 None false) DNone (TArr (PInt 4)) (
  FNil))).
(* messages/stopreplica/request/stopreplicatopicstate/stopreplicapartitionstate.go *)
Definition s_stopreplica_request_stopreplicatopicstate_StopReplicaPartitionState : sch := Sch 2 32767 (
  (* partitionIndex *) FCons (mkctx 3 32767 2 32767 0 0 0 0 None false) DNone (TPrim (PInt 4)) (
  (* leaderEpoch *) FCons (mkctx 3 32767 2 32767 0 0 0 0 None false) (DInt (-1)) (TPrim (PInt 4)) (
  (* deletePartition *) FCons (mkctx 3 32767 2 32767 0 0 0 0 None false) DNone (TPrim PBool) (
  FNil)))).
(* messages/stopreplica/request/stopreplicatopicstate.go *)
Definition s_stopreplica_request_StopReplicaTopicState : sch := Sch 2 32767 (
  (* topicName *) FCons (mkctx 3 32767 2 32767 0 0 0 0 None false) DNone (TPrim PStr) (
  (* partitionStates *) FCons (mkctx 3 32767 2 32767 0 0 0 0 None false) DNone (TArrS s_stopreplica_request_stopreplicatopicstate_StopReplicaPartitionState) (
  FNil))).
(* messages/stopreplica/request.go *)
Definition s_stopreplica_Request : sch := Sch 2 32767 (
  (* controllerId *) FCons (mkctx 0 32767 2 32767 0 0 0 0 None false) DNone (TPrim (PInt 4)) (
  (* isKRaftController *) FCons (mkctx 4 32767 2 32767 0 0 0 0 None false) DNone (TPrim PBool) (
  (* controllerEpoch *) FCons (mkctx 0 32767 2 32767 0 0 0 0 None false) DNone (TPrim (PInt 4)) (
  (* brokerEpoch *) FCons (mkctx 1 32767 2 32767 0 0 0 0 None true) (DInt (-1)) (TPrim (PInt 8)) (
  (* deletePartitions *) FCons (mkctx 0 2 2 32767 0 0 0 0 None false) DNone (TPrim PBool) (
  (* ungroupedPartitions *) FCons (mkctx 0 0 2 32767 0 0 0 0 None false) DNone (TArrS s_stopreplica_request_StopReplicaPartitionV0) (
  (* topics *) FCons (mkctx 1 2 2 32767 0 0 0 0 None false) DNone (TArrS s_stopreplica_request_StopReplicaTopicV1) (
  (* topicStates *) FCons (mkctx 3 32767 2 32767 0 0 0 0 None false) DNone (TArrS s_stopreplica_request_StopReplicaTopicState) (
  FNil))))))))).
(* messages/stopreplica/response/stopreplicapartitionerror.go *)
Definition s_stopreplica_response_StopReplicaPartitionError : sch := Sch 2 32767 (
  (* topicName *) FCons (mkctx 0 32767 2 32767 0 0 0 0 None false) DNone (TPrim PStr) (
  (* partitionIndex *) FCons (mkctx 0 32767 2 32767 0 0 0 0 None false) DNone (TPrim (PInt 4)) (
  (* errorCode *) FCons (mkctx 0 32767 2 32767 0 0 0 0 None false) DNone (TPrim (PInt 2)) (
  FNil)))).
(* messages/stopreplica/response.go *)
Definition s_stopreplica_Response : sch := Sch 2 32767 (
  (* errorCode *) FCons (mkctx 0 32767 2 32767 0 0 0 0 None false) DNone (TPrim (PInt 2)) (
  (* partitionErrors *) FCons (mkctx 0 32767 2 32767 0 0 0 0 None false) DNone (TArrS s_stopreplica_response_StopReplicaPartitionError) (
  FNil))).
(* messages/syncgroup/request/syncgrouprequestassignment.go *)
Definition s_syncgroup_request_SyncGroupRequestAssignment : sch := Sch 4 32767 (
  (* memberId *) FCons (mkctx 0 32767 4 32767 0 0 0 0 None false) DNone (TPrim PStr) (
  (* assignment *) FCons (mkctx 0 32767 4 32767 0 0 0 0 None false) DNone (TPrim PBytes) (
  FNil))).
(* messages/syncgroup/request.go *)
Definition s_syncgroup_Request : sch := Sch 4 32767 (
  (* groupId *) FCons (mkctx 0 32767 4 32767 0 0 0 0 None false) DNone (TPrim PStr) (
  (* generationId *) FCons (mkctx 0 32767 4 32767 0 0 0 0 None false) DNone (TPrim (PInt 4)) (
  (* memberId *) FCons (mkctx 0 32767 4 32767 0 0 0 0 None false) DNone (TPrim PStr) (
  (* groupInstanceId *) FCons (mkctx 3 32767 4 32767 3 32767 0 0 None false) (DStr null_text) (TPrim PStr) (
  (* protocolType *) FCons (mkctx 5 32767 4 32767 5 32767 0 0 None true) (DStr null_text) (TPrim PStr) (
  (* protocolName *) FCons (mkctx 5 32767 4 32767 5 32767 0 0 None true) (DStr null_text) (TPrim PStr) (
  (* assignments *) FCons (mkctx 0 32767 4 32767 0 0 0 0 None false) DNone (TArrS s_syncgroup_request_SyncGroupRequestAssignment) (
  FNil)))))))).
(* messages/syncgroup/response.go *)
Definition s_syncgroup_Response : sch := Sch 4 32767 (
  (* throttleTimeMs *) FCons (mkctx 1 32767 4 32767 0 0 0 0 None true) DNone (TPrim (PInt 4)) (
  (* errorCode *) FCons (mkctx 0 32767 4 32767 0 0 0 0 None false) DNone (TPrim (PInt 2)) (
  (* protocolType *) FCons (mkctx 5 32767 4 32767 5 32767 0 0 None true) (DStr null_text) (TPrim PStr) (
  (* protocolName *) FCons (mkctx 5 32767 4 32767 5 32767 0 0 None true) (DStr null_text) (TPrim PStr) (
  (* assignment *) FCons (mkctx 0 32767 4 32767 0 0 0 0 None false) DNone (TPrim PBytes) (
  FNil)))))).
(* messages/txnoffsetcommit/request/txnoffsetcommitrequesttopic/txnoffsetcommitrequestpartition.go *)
Definition s_txnoffsetcommit_request_txnoffsetcommitrequesttopic_TxnOffsetCommitRequestPartition : sch := Sch 3 32767 (
  (* partitionIndex *) FCons (mkctx 0 32767 3 32767 0 0 0 0 None false) DNone (TPrim (PInt 4)) (
  (* committedOffset *) FCons (mkctx 0 32767 3 32767 0 0 0 0 None false) DNone (TPrim (PInt 8)) (
  (* committedLeaderEpoch *) FCons (mkctx 2 32767 3 32767 0 0 0 0 None true) (DInt (-1)) (TPrim (PInt 4)) (
  (* committedMetadata *) FCons (mkctx 0 32767 3 32767 0 32767 0 0 None false) DNone (TPrim PStr) (
  FNil))))).
(* messages/txnoffsetcommit/request/txnoffsetcommitrequesttopic.go *)
Definition s_txnoffsetcommit_request_TxnOffsetCommitRequestTopic : sch := Sch 3 32767 (
  (* name *) FCons (mkctx 0 32767 3 32767 0 0 0 0 None false) DNone (TPrim PStr) (
  (* partitions *) FCons (mkctx 0 32767 3 32767 0 0 0 0 None false) DNone (TArrS s_txnoffsetcommit_request_txnoffsetcommitrequesttopic_TxnOffsetCommitRequestPartition) (
  FNil))).
(* messages/txnoffsetcommit/request.go *)
Definition s_txnoffsetcommit_Request : sch := Sch 3 32767 (
  (* transactionalId *) FCons (mkctx 0 32767 3 32767 0 0 0 0 None false) DNone (TPrim PStr) (
  (* groupId *) FCons (mkctx 0 32767 3 32767 0 0 0 0 None false) DNone (TPrim PStr) (
  (* producerId *) FCons (mkctx 0 32767 3 32767 0 0 0 0 None false) DNone (TPrim (PInt 8)) (
  (* producerEpoch *) FCons (mkctx 0 32767 3 32767 0 0 0 0 None false) DNone (TPrim (PInt 2)) (
  (* generationId *) FCons (mkctx 3 32767 3 32767 0 0 0 0 None false) (DInt (-1)) (TPrim (PInt 4)) (
  (* memberId *) FCons (mkctx 3 32767 3 32767 0 0 0 0 None false) DNone (TPrim PStr) (
  (* groupInstanceId *) FCons (mkctx 3 32767 3 32767 3 32767 0 0 None false) (DStr null_text) (TPrim PStr) (
  (* topics *) FCons (mkctx 0 32767 3 32767 0 0 0 0 None false) DNone (TArrS s_txnoffsetcommit_request_TxnOffsetCommitRequestTopic) (
  FNil))))))))).
(* messages/txnoffsetcommit/response/txnoffsetcommitresponsetopic/txnoffsetcommitresponsepartition.go *)
Definition s_txnoffsetcommit_response_txnoffsetcommitresponsetopic_TxnOffsetCommitResponsePartition : sch := Sch 3 32767 (
  (* partitionIndex *) FCons (mkctx 0 32767 3 32767 0 0 0 0 None false) DNone (TPrim (PInt 4)) (
  (* errorCode *) FCons (mkctx 0 32767 3 32767 0 0 0 0 None false) DNone (TPrim (PInt 2)) (
  FNil))).
(* messages/txnoffsetcommit/response/txnoffsetcommitresponsetopic.go *)
Definition s_txnoffsetcommit_response_TxnOffsetCommitResponseTopic : sch := Sch 3 32767 (
  (* name *) FCons (mkctx 0 32767 3 32767 0 0 0 0 None false) DNone (TPrim PStr) (
  (* partitions *) FCons (mkctx 0 32767 3 32767 0 0 0 0 None false) DNone (TArrS s_txnoffsetcommit_response_txnoffsetcommitresponsetopic_TxnOffsetCommitResponsePartition) (
  FNil))).
(* messages/txnoffsetcommit/response.go *)
Definition s_txnoffsetcommit_Response : sch := Sch 3 32767 (
  (* throttleTimeMs *) FCons (mkctx 0 32767 3 32767 0 0 0 0 None false) DNone (TPrim (PInt 4)) (
  (* topics *) FCons (mkctx 0 32767 3 32767 0 0 0 0 None false) DNone (TArrS s_txnoffsetcommit_response_TxnOffsetCommitResponseTopic) (
  FNil))).
(* messages/unregisterbroker/request.go *)
Definition s_unregisterbroker_Request : sch := Sch 0 32767 (
  (* brokerId *) FCons (mkctx 0 32767 0 32767 0 0 0 0 None false) DNone (TPrim (PInt 4)) (
  FNil)).
(* messages/unregisterbroker/response.go *)
Definition s_unregisterbroker_Response : sch := Sch 0 32767 (
  (* throttleTimeMs *) FCons (mkctx 0 32767 0 32767 0 0 0 0 None false) DNone (TPrim (PInt 4)) (
  (* errorCode *) FCons (mkctx 0 32767 0 32767 0 0 0 0 None false) DNone (TPrim (PInt 2)) (
  (* errorMessage *) FCons (mkctx 0 32767 0 32767 0 32767 0 0 None false) DNone (TPrim PStr) (
  FNil)))).
(* messages/updatefeatures/request/featureupdatekey.go *)
Definition s_updatefeatures_request_FeatureUpdateKey : sch := Sch 0 32767 (
  (* feature *) FCons (mkctx 0 32767 0 32767 0 0 0 0 None false) DNone (TPrim PStr) (
  (* maxVersionLevel *) FCons (mkctx 0 32767 0 32767 0 0 0 0 None false) DNone (TPrim (PInt 2)) (
  (* allowDowngrade *) FCons (mkctx 0 0 0 32767 0 0 0 0 None false) DNone (TPrim PBool) (
  (* upgradeType *) FCons (mkctx 1 32767 0 32767 0 0 0 0 None false) (DInt 1) (TPrim (PInt 1)) (
  FNil))))).
(* messages/updatefeatures/request.go *)
Definition s_updatefeatures_Request : sch := Sch 0 32767 (
  (* timeoutMs *) FCons (mkctx 0 32767 0 32767 0 0 0 0 None false) (DInt 60000) (TPrim (PInt 4)) (
  (* featureUpdates *) FCons (mkctx 0 32767 0 32767 0 0 0 0 None false) DNone (TArrS s_updatefeatures_request_FeatureUpdateKey) (
  (* validateOnly *) FCons (mkctx 1 32767 0 32767 0 0 0 0 None false) DNone (TPrim PBool) (
  FNil)))).
(* messages/updatefeatures/response/updatablefeatureresult.go *)
Definition s_updatefeatures_response_UpdatableFeatureResult : sch := Sch 0 32767 (
  (* feature *) FCons (mkctx 0 32767 0 32767 0 0 0 0 None false) DNone (TPrim PStr) (
  (* errorCode *) FCons (mkctx 0 32767 0 32767 0 0 0 0 None false) DNone (TPrim (PInt 2)) (
  (* errorMessage *) FCons (mkctx 0 32767 0 32767 0 32767 0 0 None false) DNone (TPrim PStr) (
  FNil)))).
(* messages/updatefeatures/response.go *)
Definition s_updatefeatures_Response : sch := Sch 0 32767 (
  (* throttleTimeMs *) FCons (mkctx 0 32767 0 32767 0 0 0 0 None false) DNone (TPrim (PInt 4)) (
  (* errorCode *) FCons (mkctx 0 32767 0 32767 0 0 0 0 None false) DNone (TPrim (PInt 2)) (
  (* errorMessage *) FCons (mkctx 0 32767 0 32767 0 32767 0 0 None false) DNone (TPrim PStr) (
  (* results *) FCons (mkctx 0 32767 0 32767 0 0 0 0 None false) DNone (TArrS s_updatefeatures_response_UpdatableFeatureResult) (
  FNil))))).
(* messages/updatemetadata/common/updatemetadatapartitionstate.go *)
Definition s_updatemetadata_common_UpdateMetadataPartitionState : sch := Sch 6 32767 (
  (* topicName *) FCons (mkctx 0 4 6 32767 0 0 0 0 None false) DNone (TPrim PStr) (
  (* partitionIndex *) FCons (mkctx 0 32767 6 32767 0 0 0 0 None false) DNone (TPrim (PInt 4)) (
  (* controllerEpoch *) FCons (mkctx 0 32767 6 32767 0 0 0 0 None false) DNone (TPrim (PInt 4)) (
  (* leader *) FCons (mkctx 0 32767 6 32767 0 0 0 0 None false) DNone (TPrim (PInt 4)) (
  (* leaderEpoch *) FCons (mkctx 0 32767 6 32767 0 0 0 0 None false) DNone (TPrim (PInt 4)) (
  (* isr *) FCons (mkctx 0 32767 6 32767 0 0 0 0 None false) DNone (TArr (PInt 4)) (
  (* zkVersion *) FCons (mkctx 0 32767 6 32767 0 0 0 0 None false) DNone (TPrim (PInt 4)) (
  (* replicas *) FCons (mkctx 0 32767 6 32767 0 0 0 0 None false) DNone (TArr (PInt 4)) (
  (* offlineReplicas *) FCons (mkctx 4 32767 6 32767 0 0 0 0 None true) DNone (TArr (PInt 4)) (
  FNil)))))))))).
(* messages/updatemetadata/request/updatemetadatatopicstate.go *)
Definition s_updatemetadata_request_UpdateMetadataTopicState : sch := Sch 6 32767 (
  (* topicName *) FCons (mkctx 5 32767 6 32767 0 0 0 0 None false) DNone (TPrim PStr) (
  (* topicId *) FCons (mkctx 7 32767 6 32767 0 0 0 0 None true) DNone (TPrim PUuid) (
  (* partitionStates *) FCons (mkctx 5 32767 6 32767 0 0 0 0 None false) DNone (TArrS s_updatemetadata_common_UpdateMetadataPartitionState) (
  FNil)))).
(* messages/updatemetadata/request/updatemetadatabroker/updatemetadataendpoint.go *)
Definition s_updatemetadata_request_updatemetadatabroker_UpdateMetadataEndpoint : sch := Sch 6 32767 (
  (* port *) FCons (mkctx 1 32767 6 32767 0 0 0 0 None false) DNone (TPrim (PInt 4)) (
  (* host *) FCons (mkctx 1 32767 6 32767 0 0 0 0 None false) DNone (TPrim PStr) (
  (* listener *) FCons (mkctx 3 32767 6 32767 0 0 0 0 None true) DNone (TPrim PStr) (
  (* securityProtocol *) FCons (mkctx 1 32767 6 32767 0 0 0 0 None false) DNone (TPrim (PInt 2)) (
  FNil))))).
(* messages/updatemetadata/request/updatemetadatabroker.go *)
Definition s_updatemetadata_request_UpdateMetadataBroker : sch := Sch 6 32767 (
  (* id *) FCons (mkctx 0 32767 6 32767 0 0 0 0 None false) DNone (TPrim (PInt 4)) (
  (* v0Host *) FCons (mkctx 0 0 6 32767 0 0 0 0 None false) DNone (TPrim PStr) (
  (* v0Port *) FCons (mkctx 0 0 6 32767 0 0 0 0 None false) DNone (TPrim (PInt 4)) (
  (* endpoints *) FCons (mkctx 1 32767 6 32767 0 0 0 0 None true) DNone (TArrS s_updatemetadata_request_updatemetadatabroker_UpdateMetadataEndpoint) (
  (* rack *) FCons (mkctx 2 32767 6 32767 0 32767 0 0 None true) DNone (TPrim PStr) (
  FNil)))))).
(* messages/updatemetadata/request.go *)
Definition s_updatemetadata_Request : sch := Sch 6 32767 (
  (* controllerId *) FCons (mkctx 0 32767 6 32767 0 0 0 0 None false) DNone (TPrim (PInt 4)) (
  (* isKRaftController *) FCons (mkctx 8 32767 6 32767 0 0 0 0 None false) DNone (TPrim PBool) (
  (* controllerEpoch *) FCons (mkctx 0 32767 6 32767 0 0 0 0 None false) DNone (TPrim (PInt 4)) (
  (* brokerEpoch *) FCons (mkctx 5 32767 6 32767 0 0 0 0 None true) (DInt (-1)) (TPrim (PInt 8)) (
  (* ungroupedPartitionStates *) FCons (mkctx 0 4 6 32767 0 0 0 0 None false) DNone (TArrS s_updatemetadata_common_UpdateMetadataPartitionState) (
  (* topicStates *) FCons (mkctx 5 32767 6 32767 0 0 0 0 None false) DNone (TArrS s_updatemetadata_request_UpdateMetadataTopicState) (
  (* liveBrokers *) FCons (mkctx 0 32767 6 32767 0 0 0 0 None false) DNone (TArrS s_updatemetadata_request_UpdateMetadataBroker) (
  FNil)))))))).
(* messages/updatemetadata/response.go *)
Definition s_updatemetadata_Response : sch := Sch 6 32767 (
  (* errorCode *) FCons (mkctx 0 32767 6 32767 0 0 0 0 None false) DNone (TPrim (PInt 2)) (
  FNil)).
(* messages/vote/request/topicdata/partitiondata.go *)
Definition s_vote_request_topicdata_PartitionData : sch := Sch 0 32767 (
  (* partitionIndex *) FCons (mkctx 0 32767 0 32767 0 0 0 0 None false) DNone (TPrim (PInt 4)) (
  (* candidateEpoch *) FCons (mkctx 0 32767 0 32767 0 0 0 0 None false) DNone (TPrim (PInt 4)) (
  (* candidateId *) FCons (mkctx 0 32767 0 32767 0 0 0 0 None false) DNone (TPrim (PInt 4)) (
  (* lastOffsetEpoch *) FCons (mkctx 0 32767 0 32767 0 0 0 0 None false) DNone (TPrim (PInt 4)) (
  (* lastOffset *) FCons (mkctx 0 32767 0 32767 0 0 0 0 None false) DNone (TPrim (PInt 8)) (
  FNil)))))).
(* messages/vote/request/topicdata.go *)
Definition s_vote_request_TopicData : sch := Sch 0 32767 (
  (* topicName *) FCons (mkctx 0 32767 0 32767 0 0 0 0 None false) DNone (TPrim PStr) (
  (* partitions *) FCons (mkctx 0 32767 0 32767 0 0 0 0 None false) DNone (TArrS s_vote_request_topicdata_PartitionData) (
  FNil))).
(* messages/vote/request.go *)
Definition s_vote_Request : sch := Sch 0 32767 (
  (* clusterId *) FCons (mkctx 0 32767 0 32767 0 32767 0 0 None false) (DStr null_text) (TPrim PStr) (
  (* topics *) FCons (mkctx 0 32767 0 32767 0 0 0 0 None false) DNone (TArrS s_vote_request_TopicData) (
  FNil))).
(* messages/vote/response/topicdata/partitiondata.go *)
Definition s_vote_response_topicdata_PartitionData : sch := Sch 0 32767 (
  (* partitionIndex *) FCons (mkctx 0 32767 0 32767 0 0 0 0 None false) DNone (TPrim (PInt 4)) (
  (* errorCode *) FCons (mkctx 0 32767 0 32767 0 0 0 0 None false) DNone (TPrim (PInt 2)) (
  (* leaderId *) FCons (mkctx 0 32767 0 32767 0 0 0 0 None false) DNone (TPrim (PInt 4)) (
  (* leaderEpoch *) FCons (mkctx 0 32767 0 32767 0 0 0 0 None false) DNone (TPrim (PInt 4)) (
  (* voteGranted *) FCons (mkctx 0 32767 0 32767 0 0 0 0 None false) DNone (TPrim PBool) (
  FNil)))))).
(* messages/vote/response/topicdata.go *)
Definition s_vote_response_TopicData : sch := Sch 0 32767 (
  (* topicName *) FCons (mkctx 0 32767 0 32767 0 0 0 0 None false) DNone (TPrim PStr) (
  (* partitions *) FCons (mkctx 0 32767 0 32767 0 0 0 0 None false) DNone (TArrS s_vote_response_topicdata_PartitionData) (
  FNil))).
(* messages/vote/response.go *)
Definition s_vote_Response : sch := Sch 0 32767 (
  (* errorCode *) FCons (mkctx 0 32767 0 32767 0 0 0 0 None false) DNone (TPrim (PInt 2)) (
  (* topics *) FCons (mkctx 0 32767 0 32767 0 0 0 0 None false) DNone (TArrS s_vote_response_TopicData) (
  FNil))).
(* messages/writetxnmarkers/request/writabletxnmarker/writabletxnmarkertopic.go *)
Definition s_writetxnmarkers_request_writabletxnmarker_WritableTxnMarkerTopic : sch := Sch 1 32767 (
  (* name *) FCons (mkctx 0 32767 1 32767 0 0 0 0 None false) DNone (TPrim PStr) (
  (* partitionIndexes *) FCons (mkctx 0 32767 1 32767 0 0 0 0 None false) DNone (TArr (PInt 4)) (
  FNil))).
(* messages/writetxnmarkers/request/writabletxnmarker.go *)
Definition s_writetxnmarkers_request_WritableTxnMarker : sch := Sch 1 32767 (
  (* producerId *) FCons (mkctx 0 32767 1 32767 0 0 0 0 None false) DNone (TPrim (PInt 8)) (
  (* producerEpoch *) FCons (mkctx 0 32767 1 32767 0 0 0 0 None false) DNone (TPrim (PInt 2)) (
  (* transactionResult *) FCons (mkctx 0 32767 1 32767 0 0 0 0 None false) DNone (TPrim PBool) (
  (* topics *) FCons (mkctx 0 32767 1 32767 0 0 0 0 None false) DNone (TArrS s_writetxnmarkers_request_writabletxnmarker_WritableTxnMarkerTopic) (
  (* coordinatorEpoch *) FCons (mkctx 0 32767 1 32767 0 0 0 0 None false) DNone (TPrim (PInt 4)) (
  FNil)))))).
(* messages/writetxnmarkers/request.go *)
Definition s_writetxnmarkers_Request : sch := Sch 1 32767 (
  (* markers *) FCons (mkctx 0 32767 1 32767 0 0 0 0 None false) DNone (TArrS s_writetxnmarkers_request_WritableTxnMarker) (
  FNil)).
(* messages/writetxnmarkers/response/writabletxnmarkerresult/writabletxnmarkertopicresult/writabletxnmarkerpartitionresult.go *)
Definition s_writetxnmarkers_response_writabletxnmarkerresult_writabletxnmarkertopicresult_WritableTxnMarkerPartitionResult : sch := Sch 1 32767 (
  (* partitionIndex *) FCons (mkctx 0 32767 1 32767 0 0 0 0 None false) DNone (TPrim (PInt 4)) (
  (* errorCode *) FCons (mkctx 0 32767 1 32767 0 0 0 0 None false) DNone (TPrim (PInt 2)) (
  FNil))).
(* messages/writetxnmarkers/response/writabletxnmarkerresult/writabletxnmarkertopicresult.go *)
Definition s_writetxnmarkers_response_writabletxnmarkerresult_WritableTxnMarkerTopicResult : sch := Sch 1 32767 (
  (* name *) FCons (mkctx 0 32767 1 32767 0 0 0 0 None false) DNone (TPrim PStr) (
  (* partitions *) FCons (mkctx 0 32767 1 32767 0 0 0 0 None false) DNone (TArrS s_writetxnmarkers_response_writabletxnmarkerresult_writabletxnmarkertopicresult_WritableTxnMarkerPartitionResult) (
  FNil))).
(* messages/writetxnmarkers/response/writabletxnmarkerresult.go *)
Definition s_writetxnmarkers_response_WritableTxnMarkerResult : sch := Sch 1 32767 (
  (* producerId *) FCons (mkctx 0 32767 1 32767 0 0 0 0 None false) DNone (TPrim (PInt 8)) (
  (* topics *) FCons (mkctx 0 32767 1 32767 0 0 0 0 None false) DNone (TArrS s_writetxnmarkers_response_writabletxnmarkerresult_WritableTxnMarkerTopicResult) (
  FNil))).
(* messages/writetxnmarkers/response.go *)
Definition s_writetxnmarkers_Response : sch := Sch 1 32767 (
  (* markers *) FCons (mkctx 0 32767 1 32767 0 0 0 0 None false) DNone (TArrS s_writetxnmarkers_response_WritableTxnMarkerResult) (
  FNil)).

(* pkg/request/header.go: headerVersion (-1 = unsupported api key) *)
Definition req_header_version (key ver : Z) : Z :=
  if key =? 0 then (if 9 <=? ver then 2 else 1)
  else if key =? 1 then (if 12 <=? ver then 2 else 1)
  else if key =? 2 then (if 6 <=? ver then 2 else 1)
  else if key =? 3 then (if 9 <=? ver then 2 else 1)
  else if key =? 4 then (if 4 <=? ver then 2 else 1)
  else if key =? 5 then (if 2 <=? ver then 2 else 1)
  else if key =? 6 then (if 6 <=? ver then 2 else 1)
  else if key =? 7 then (if ver =? 0 then 0 else if 3 <=? ver then 2 else 1)
  else if key =? 8 then (if 8 <=? ver then 2 else 1)
  else if key =? 9 then (if 6 <=? ver then 2 else 1)
  else if key =? 10 then (if 3 <=? ver then 2 else 1)
  else if key =? 11 then (if 6 <=? ver then 2 else 1)
  else if key =? 12 then (if 4 <=? ver then 2 else 1)
  else if key =? 13 then (if 4 <=? ver then 2 else 1)
  else if key =? 14 then (if 4 <=? ver then 2 else 1)
  else if key =? 15 then (if 5 <=? ver then 2 else 1)
  else if key =? 16 then (if 3 <=? ver then 2 else 1)
  else if key =? 17 then (1)
  else if key =? 18 then (if 3 <=? ver then 2 else 1)
  else if key =? 19 then (if 5 <=? ver then 2 else 1)
  else if key =? 20 then (if 4 <=? ver then 2 else 1)
  else if key =? 21 then (if 2 <=? ver then 2 else 1)
  else if key =? 22 then (if 2 <=? ver then 2 else 1)
  else if key =? 23 then (if 4 <=? ver then 2 else 1)
  else if key =? 24 then (if 3 <=? ver then 2 else 1)
  else if key =? 25 then (if 3 <=? ver then 2 else 1)
  else if key =? 26 then (if 3 <=? ver then 2 else 1)
  else if key =? 27 then (if 1 <=? ver then 2 else 1)
  else if key =? 28 then (if 3 <=? ver then 2 else 1)
  else if key =? 29 then (if 2 <=? ver then 2 else 1)
  else if key =? 30 then (if 2 <=? ver then 2 else 1)
  else if key =? 31 then (if 2 <=? ver then 2 else 1)
  else if key =? 32 then (if 4 <=? ver then 2 else 1)
  else if key =? 33 then (if 2 <=? ver then 2 else 1)
  else if key =? 34 then (if 2 <=? ver then 2 else 1)
  else if key =? 35 then (if 2 <=? ver then 2 else 1)
  else if key =? 36 then (if 2 <=? ver then 2 else 1)
  else if key =? 37 then (if 2 <=? ver then 2 else 1)
  else if key =? 38 then (if 2 <=? ver then 2 else 1)
  else if key =? 39 then (if 2 <=? ver then 2 else 1)
  else if key =? 40 then (if 2 <=? ver then 2 else 1)
  else if key =? 41 then (if 2 <=? ver then 2 else 1)
  else if key =? 42 then (if 2 <=? ver then 2 else 1)
  else if key =? 43 then (if 2 <=? ver then 2 else 1)
  else if key =? 44 then (if 1 <=? ver then 2 else 1)
  else if key =? 45 then (2)
  else if key =? 46 then (2)
  else if key =? 47 then (1)
  else if key =? 48 then (if 1 <=? ver then 2 else 1)
  else if key =? 49 then (if 1 <=? ver then 2 else 1)
  else if key =? 50 then (2)
  else if key =? 51 then (2)
  else if key =? 52 then (2)
  else if key =? 53 then (1)
  else if key =? 54 then (1)
  else if key =? 55 then (2)
  else if key =? 56 then (2)
  else if key =? 57 then (2)
  else if key =? 58 then (2)
  else if key =? 59 then (2)
  else if key =? 60 then (2)
  else if key =? 61 then (2)
  else if key =? 62 then (2)
  else if key =? 63 then (2)
  else if key =? 64 then (2)
  else if key =? 65 then (2)
  else if key =? 66 then (2)
  else if key =? 67 then (2)
  else -1.

(* pkg/response/header.go: headerVersion (-1 = unsupported api key) *)
Definition resp_header_version (key ver : Z) : Z :=
  if key =? 0 then (if 9 <=? ver then 1 else 0)
  else if key =? 1 then (if 12 <=? ver then 1 else 0)
  else if key =? 2 then (if 6 <=? ver then 1 else 0)
  else if key =? 3 then (if 9 <=? ver then 1 else 0)
  else if key =? 4 then (if 4 <=? ver then 1 else 0)
  else if key =? 5 then (if 2 <=? ver then 1 else 0)
  else if key =? 6 then (if 6 <=? ver then 1 else 0)
  else if key =? 7 then (if 3 <=? ver then 1 else 0)
  else if key =? 8 then (if 8 <=? ver then 1 else 0)
  else if key =? 9 then (if 6 <=? ver then 1 else 0)
  else if key =? 10 then (if 3 <=? ver then 1 else 0)
  else if key =? 11 then (if 6 <=? ver then 1 else 0)
  else if key =? 12 then (if 4 <=? ver then 1 else 0)
  else if key =? 13 then (if 4 <=? ver then 1 else 0)
  else if key =? 14 then (if 4 <=? ver then 1 else 0)
  else if key =? 15 then (if 5 <=? ver then 1 else 0)
  else if key =? 16 then (if 3 <=? ver then 1 else 0)
  else if key =? 17 then (0)
  else if key =? 18 then (0)
  else if key =? 19 then (if 5 <=? ver then 1 else 0)
  else if key =? 20 then (if 4 <=? ver then 1 else 0)
  else if key =? 21 then (if 2 <=? ver then 1 else 0)
  else if key =? 22 then (if 2 <=? ver then 1 else 0)
  else if key =? 23 then (if 4 <=? ver then 1 else 0)
  else if key =? 24 then (if 3 <=? ver then 1 else 0)
  else if key =? 25 then (if 3 <=? ver then 1 else 0)
  else if key =? 26 then (if 3 <=? ver then 1 else 0)
  else if key =? 27 then (if 1 <=? ver then 1 else 0)
  else if key =? 28 then (if 3 <=? ver then 1 else 0)
  else if key =? 29 then (if 2 <=? ver then 1 else 0)
  else if key =? 30 then (if 2 <=? ver then 1 else 0)
  else if key =? 31 then (if 2 <=? ver then 1 else 0)
  else if key =? 32 then (if 4 <=? ver then 1 else 0)
  else if key =? 33 then (if 2 <=? ver then 1 else 0)
  else if key =? 34 then (if 2 <=? ver then 1 else 0)
  else if key =? 35 then (if 2 <=? ver then 1 else 0)
  else if key =? 36 then (if 2 <=? ver then 1 else 0)
  else if key =? 37 then (if 2 <=? ver then 1 else 0)
  else if key =? 38 then (if 2 <=? ver then 1 else 0)
  else if key =? 39 then (if 2 <=? ver then 1 else 0)
  else if key =? 40 then (if 2 <=? ver then 1 else 0)
  else if key =? 41 then (if 2 <=? ver then 1 else 0)
  else if key =? 42 then (if 2 <=? ver then 1 else 0)
  else if key =? 43 then (if 2 <=? ver then 1 else 0)
  else if key =? 44 then (if 1 <=? ver then 1 else 0)
  else if key =? 45 then (1)
  else if key =? 46 then (1)
  else if key =? 47 then (0)
  else if key =? 48 then (if 1 <=? ver then 1 else 0)
  else if key =? 49 then (if 1 <=? ver then 1 else 0)
  else if key =? 50 then (1)
  else if key =? 51 then (1)
  else if key =? 52 then (1)
  else if key =? 53 then (0)
  else if key =? 54 then (0)
  else if key =? 55 then (1)
  else if key =? 56 then (1)
  else if key =? 57 then (1)
  else if key =? 58 then (1)
  else if key =? 59 then (1)
  else if key =? 60 then (1)
  else if key =? 61 then (1)
  else if key =? 62 then (1)
  else if key =? 63 then (1)
  else if key =? 64 then (1)
  else if key =? 65 then (1)
  else if key =? 66 then (1)
  else if key =? 67 then (1)
  else -1.

(* NewRequest (messages/requests.go) *)
Definition req_sch (key : Z) : option sch :=
  if key =? 0 then Some s_produce_Request
  else if key =? 1 then Some s_fetch_Request
  else if key =? 2 then Some s_listoffsets_Request
  else if key =? 3 then Some s_metadata_Request
  else if key =? 4 then Some s_leaderandisr_Request
  else if key =? 5 then Some s_stopreplica_Request
  else if key =? 6 then Some s_updatemetadata_Request
  else if key =? 7 then Some s_controlledshutdown_Request
  else if key =? 8 then Some s_offsetcommit_Request
  else if key =? 9 then Some s_offsetfetch_Request
  else if key =? 10 then Some s_findcoordinator_Request
  else if key =? 11 then Some s_joingroup_Request
  else if key =? 12 then Some s_heartbeat_Request
  else if key =? 13 then Some s_leavegroup_Request
  else if key =? 14 then Some s_syncgroup_Request
  else if key =? 15 then Some s_describegroups_Request
  else if key =? 16 then Some s_listgroups_Request
  else if key =? 17 then Some s_saslhandshake_Request
  else if key =? 18 then Some s_apiversions_Request
  else if key =? 19 then Some s_createtopics_Request
  else if key =? 20 then Some s_deletetopics_Request
  else if key =? 21 then Some s_deleterecords_Request
  else if key =? 22 then Some s_initproducerid_Request
  else if key =? 23 then Some s_offsetforleaderepoch_Request
  else if key =? 24 then Some s_addpartitionstotxn_Request
  else if key =? 25 then Some s_addoffsetstotxn_Request
  else if key =? 26 then Some s_endtxn_Request
  else if key =? 27 then Some s_writetxnmarkers_Request
  else if key =? 28 then Some s_txnoffsetcommit_Request
  else if key =? 29 then Some s_describeacls_Request
  else if key =? 30 then Some s_createacls_Request
  else if key =? 31 then Some s_deleteacls_Request
  else if key =? 32 then Some s_describeconfigs_Request
  else if key =? 33 then Some s_alterconfigs_Request
  else if key =? 34 then Some s_alterreplicalogdirs_Request
  else if key =? 35 then Some s_describelogdirs_Request
  else if key =? 36 then Some s_saslauthenticate_Request
  else if key =? 37 then Some s_createpartitions_Request
  else if key =? 38 then Some s_createdelegationtoken_Request
  else if key =? 39 then Some s_renewdelegationtoken_Request
  else if key =? 40 then Some s_expiredelegationtoken_Request
  else if key =? 41 then Some s_describedelegationtoken_Request
  else if key =? 42 then Some s_deletegroups_Request
  else if key =? 43 then Some s_electleaders_Request
  else if key =? 44 then Some s_incrementalalterconfigs_Request
  else if key =? 45 then Some s_alterpartitionreassignments_Request
  else if key =? 46 then Some s_listpartitionreassignments_Request
  else if key =? 47 then Some s_offsetdelete_Request
  else if key =? 48 then Some s_describeclientquotas_Request
  else if key =? 49 then Some s_alterclientquotas_Request
  else if key =? 50 then Some s_describeuserscramcredentials_Request
  else if key =? 51 then Some s_alteruserscramcredentials_Request
  else if key =? 52 then Some s_vote_Request
  else if key =? 53 then Some s_beginquorumepoch_Request
  else if key =? 54 then Some s_endquorumepoch_Request
  else if key =? 55 then Some s_describequorum_Request
  else if key =? 56 then Some s_alterpartition_Request
  else if key =? 57 then Some s_updatefeatures_Request
  else if key =? 58 then Some s_envelope_Request
  else if key =? 59 then Some s_fetchsnapshot_Request
  else if key =? 60 then Some s_describecluster_Request
  else if key =? 61 then Some s_describeproducers_Request
  else if key =? 62 then Some s_brokerregistration_Request
  else if key =? 63 then Some s_brokerheartbeat_Request
  else if key =? 64 then Some s_unregisterbroker_Request
  else if key =? 65 then Some s_describetransactions_Request
  else if key =? 66 then Some s_listtransactions_Request
  else if key =? 67 then Some s_allocateproducerids_Request
  else None.

(* NewResponse (messages/requests.go) *)
Definition resp_sch (key : Z) : option sch :=
  if key =? 0 then Some s_produce_Response
  else if key =? 1 then Some s_fetch_Response
  else if key =? 2 then Some s_listoffsets_Response
  else if key =? 3 then Some s_metadata_Response
  else if key =? 4 then Some s_leaderandisr_Response
  else if key =? 5 then Some s_stopreplica_Response
  else if key =? 6 then Some s_updatemetadata_Response
  else if key =? 7 then Some s_controlledshutdown_Response
  else if key =? 8 then Some s_offsetcommit_Response
  else if key =? 9 then Some s_offsetfetch_Response
  else if key =? 10 then Some s_findcoordinator_Response
  else if key =? 11 then Some s_joingroup_Response
  else if key =? 12 then Some s_heartbeat_Response
  else if key =? 13 then Some s_leavegroup_Response
  else if key =? 14 then Some s_syncgroup_Response
  else if key =? 15 then Some s_describegroups_Response
  else if key =? 16 then Some s_listgroups_Response
  else if key =? 17 then Some s_saslhandshake_Response
  else if key =? 18 then Some s_apiversions_Response
  else if key =? 19 then Some s_createtopics_Response
  else if key =? 20 then Some s_deletetopics_Response
  else if key =? 21 then Some s_deleterecords_Response
  else if key =? 22 then Some s_initproducerid_Response
  else if key =? 23 then Some s_offsetforleaderepoch_Response
  else if key =? 24 then Some s_addpartitionstotxn_Response
  else if key =? 25 then Some s_addoffsetstotxn_Response
  else if key =? 26 then Some s_endtxn_Response
  else if key =? 27 then Some s_writetxnmarkers_Response
  else if key =? 28 then Some s_txnoffsetcommit_Response
  else if key =? 29 then Some s_describeacls_Response
  else if key =? 30 then Some s_createacls_Response
  else if key =? 31 then Some s_deleteacls_Response
  else if key =? 32 then Some s_describeconfigs_Response
  else if key =? 33 then Some s_alterconfigs_Response
  else if key =? 34 then Some s_alterreplicalogdirs_Response
  else if key =? 35 then Some s_describelogdirs_Response
  else if key =? 36 then Some s_saslauthenticate_Response
  else if key =? 37 then Some s_createpartitions_Response
  else if key =? 38 then Some s_createdelegationtoken_Response
  else if key =? 39 then Some s_renewdelegationtoken_Response
  else if key =? 40 then Some s_expiredelegationtoken_Response
  else if key =? 41 then Some s_describedelegationtoken_Response
  else if key =? 42 then Some s_deletegroups_Response
  else if key =? 43 then Some s_electleaders_Response
  else if key =? 44 then Some s_incrementalalterconfigs_Response
  else if key =? 45 then Some s_alterpartitionreassignments_Response
  else if key =? 46 then Some s_listpartitionreassignments_Response
  else if key =? 47 then Some s_offsetdelete_Response
  else if key =? 48 then Some s_describeclientquotas_Response
  else if key =? 49 then Some s_alterclientquotas_Response
  else if key =? 50 then Some s_describeuserscramcredentials_Response
  else if key =? 51 then Some s_alteruserscramcredentials_Response
  else if key =? 52 then Some s_vote_Response
  else if key =? 53 then Some s_beginquorumepoch_Response
  else if key =? 54 then Some s_endquorumepoch_Response
  else if key =? 55 then Some s_describequorum_Response
  else if key =? 56 then Some s_alterpartition_Response
  else if key =? 57 then Some s_updatefeatures_Response
  else if key =? 58 then Some s_envelope_Response
  else if key =? 59 then Some s_fetchsnapshot_Response
  else if key =? 60 then Some s_describecluster_Response
  else if key =? 61 then Some s_describeproducers_Response
  else if key =? 62 then Some s_brokerregistration_Response
  else if key =? 63 then Some s_brokerheartbeat_Response
  else if key =? 64 then Some s_unregisterbroker_Response
  else if key =? 65 then Some s_describetransactions_Response
  else if key =? 66 then Some s_listtransactions_Response
  else if key =? 67 then Some s_allocateproducerids_Response
  else None.

(* LowestSupportedVersion/HighestSupportedVersion of the req_versions messages *)
Definition req_versions : list (Z * (Z * Z)) := [(0, (0, 9)); (1, (0, 13)); (2, (0, 7)); (3, (0, 12)); (4, (0, 7)); (5, (0, 4)); (6, (0, 8)); (7, (0, 3)); (8, (0, 8)); (9, (0, 8)); (10, (0, 4)); (11, (0, 9)); (12, (0, 4)); (13, (0, 5)); (14, (0, 5)); (15, (0, 5)); (16, (0, 4)); (17, (0, 1)); (18, (0, 3)); (19, (0, 7)); (20, (0, 6)); (21, (0, 2)); (22, (0, 4)); (23, (0, 4)); (24, (0, 3)); (25, (0, 3)); (26, (0, 3)); (27, (0, 1)); (28, (0, 3)); (29, (0, 3)); (30, (0, 3)); (31, (0, 3)); (32, (0, 4)); (33, (0, 2)); (34, (0, 2)); (35, (0, 4)); (36, (0, 2)); (37, (0, 3)); (38, (0, 3)); (39, (0, 2)); (40, (0, 2)); (41, (0, 3)); (42, (0, 2)); (43, (0, 2)); (44, (0, 1)); (45, (0, 0)); (46, (0, 0)); (47, (0, 0)); (48, (0, 1)); (49, (0, 1)); (50, (0, 0)); (51, (0, 0)); (52, (0, 0)); (53, (0, 0)); (54, (0, 0)); (55, (0, 1)); (56, (0, 2)); (57, (0, 1)); (58, (0, 0)); (59, (0, 0)); (60, (0, 0)); (61, (0, 0)); (62, (0, 1)); (63, (0, 0)); (64, (0, 0)); (65, (0, 0)); (66, (0, 0)); (67, (0, 0))].

(* LowestSupportedVersion/HighestSupportedVersion of the resp_versions messages *)
Definition resp_versions : list (Z * (Z * Z)) := [(0, (0, 9)); (1, (0, 13)); (2, (0, 7)); (3, (0, 12)); (4, (0, 7)); (5, (0, 4)); (6, (0, 8)); (7, (0, 3)); (8, (0, 8)); (9, (0, 8)); (10, (0, 4)); (11, (0, 9)); (12, (0, 4)); (13, (0, 5)); (14, (0, 5)); (15, (0, 5)); (16, (0, 4)); (17, (0, 1)); (18, (0, 3)); (19, (0, 7)); (20, (0, 6)); (21, (0, 2)); (22, (0, 4)); (23, (0, 4)); (24, (0, 3)); (25, (0, 3)); (26, (0, 3)); (27, (0, 1)); (28, (0, 3)); (29, (0, 3)); (30, (0, 3)); (31, (0, 3)); (32, (0, 4)); (33, (0, 2)); (34, (0, 2)); (35, (0, 4)); (36, (0, 2)); (37, (0, 3)); (38, (0, 3)); (39, (0, 2)); (40, (0, 2)); (41, (0, 3)); (42, (0, 2)); (43, (0, 2)); (44, (0, 1)); (45, (0, 0)); (46, (0, 0)); (47, (0, 0)); (48, (0, 1)); (49, (0, 1)); (50, (0, 0)); (51, (0, 0)); (52, (0, 0)); (53, (0, 0)); (54, (0, 0)); (55, (0, 1)); (56, (0, 2)); (57, (0, 1)); (58, (0, 0)); (59, (0, 0)); (60, (0, 0)); (61, (0, 0)); (62, (0, 1)); (63, (0, 0)); (64, (0, 0)); (65, (0, 0)); (66, (0, 0)); (67, (0, 0))].

(* every struct *)
Definition all_structs : list sch := [s_addoffsetstotxn_Request; s_addoffsetstotxn_Response; s_addpartitionstotxn_Request; s_addpartitionstotxn_Response; s_addpartitionstotxn_request_AddPartitionsToTxnTopic; s_addpartitionstotxn_response_AddPartitionsToTxnTopicResult; s_addpartitionstotxn_response_addpartitionstotxntopicresult_AddPartitionsToTxnPartitionResult; s_allocateproducerids_Request; s_allocateproducerids_Response; s_alterclientquotas_Request; s_alterclientquotas_Response; s_alterclientquotas_request_EntryData; s_alterclientquotas_request_entrydata_EntityData; s_alterclientquotas_request_entrydata_OpData; s_alterclientquotas_response_EntryData; s_alterclientquotas_response_entrydata_EntityData; s_alterconfigs_Request; s_alterconfigs_Response; s_alterconfigs_request_AlterConfigsResource; s_alterconfigs_request_alterconfigsresource_AlterableConfig; s_alterconfigs_response_AlterConfigsResourceResponse; s_alterpartition_Request; s_alterpartition_Response; s_alterpartition_request_TopicData; s_alterpartition_request_topicdata_PartitionData; s_alterpartition_response_TopicData; s_alterpartition_response_topicdata_PartitionData; s_alterpartitionreassignments_Request; s_alterpartitionreassignments_Response; s_alterpartitionreassignments_request_ReassignableTopic; s_alterpartitionreassignments_request_reassignabletopic_ReassignablePartition; s_alterpartitionreassignments_response_ReassignableTopicResponse; s_alterpartitionreassignments_response_reassignabletopicresponse_ReassignablePartitionResponse; s_alterreplicalogdirs_Request; s_alterreplicalogdirs_Response; s_alterreplicalogdirs_request_AlterReplicaLogDir; s_alterreplicalogdirs_request_alterreplicalogdir_AlterReplicaLogDirTopic; s_alterreplicalogdirs_response_AlterReplicaLogDirTopicResult; s_alterreplicalogdirs_response_alterreplicalogdirtopicresult_AlterReplicaLogDirPartitionResult; s_alteruserscramcredentials_Request; s_alteruserscramcredentials_Response; s_alteruserscramcredentials_request_ScramCredentialDeletion; s_alteruserscramcredentials_request_ScramCredentialUpsertion; s_alteruserscramcredentials_response_AlterUserScramCredentialsResult; s_apiversions_Request; s_apiversions_Response; s_apiversions_response_ApiVersion; s_apiversions_response_FinalizedFeatureKey; s_apiversions_response_SupportedFeatureKey; s_beginquorumepoch_Request; s_beginquorumepoch_Response; s_beginquorumepoch_request_TopicData; s_beginquorumepoch_request_topicdata_PartitionData; s_beginquorumepoch_response_TopicData; s_beginquorumepoch_response_topicdata_PartitionData; s_brokerheartbeat_Request; s_brokerheartbeat_Response; s_brokerregistration_Request; s_brokerregistration_Response; s_brokerregistration_request_Feature; s_brokerregistration_request_Listener; s_controlledshutdown_Request; s_controlledshutdown_Response; s_controlledshutdown_response_RemainingPartition; s_createacls_Request; s_createacls_Response; s_createacls_request_AclCreation; s_createacls_response_AclCreationResult; s_createdelegationtoken_Request; s_createdelegationtoken_Response; s_createdelegationtoken_request_CreatableRenewers; s_createpartitions_Request; s_createpartitions_Response; s_createpartitions_request_CreatePartitionsTopic; s_createpartitions_request_createpartitionstopic_CreatePartitionsAssignment; s_createpartitions_response_CreatePartitionsTopicResult; s_createtopics_Request; s_createtopics_Response; s_createtopics_request_CreatableTopic; s_createtopics_request_creatabletopic_CreatableReplicaAssignment; s_createtopics_request_creatabletopic_CreateableTopicConfig; s_createtopics_response_CreatableTopicResult; s_createtopics_response_creatabletopicresult_CreatableTopicConfigs; s_deleteacls_Request; s_deleteacls_Response; s_deleteacls_request_DeleteAclsFilter; s_deleteacls_response_DeleteAclsFilterResult; s_deleteacls_response_deleteaclsfilterresult_DeleteAclsMatchingAcl; s_deletegroups_Request; s_deletegroups_Response; s_deletegroups_response_DeletableGroupResult; s_deleterecords_Request; s_deleterecords_Response; s_deleterecords_request_DeleteRecordsTopic; s_deleterecords_request_deleterecordstopic_DeleteRecordsPartition; s_deleterecords_response_DeleteRecordsTopicResult; s_deleterecords_response_deleterecordstopicresult_DeleteRecordsPartitionResult; s_deletetopics_Request; s_deletetopics_Response; s_deletetopics_request_DeleteTopicState; s_deletetopics_response_DeletableTopicResult; s_describeacls_Request; s_describeacls_Response; s_describeacls_response_DescribeAclsResource; s_describeacls_response_describeaclsresource_AclDescription; s_describeclientquotas_Request; s_describeclientquotas_Response; s_describeclientquotas_request_ComponentData; s_describeclientquotas_response_EntryData; s_describeclientquotas_response_entrydata_EntityData; s_describeclientquotas_response_entrydata_ValueData; s_describecluster_Request; s_describecluster_Response; s_describecluster_response_DescribeClusterBroker; s_describeconfigs_Request; s_describeconfigs_Response; s_describeconfigs_request_DescribeConfigsResource; s_describeconfigs_response_DescribeConfigsResult; s_describeconfigs_response_describeconfigsresult_DescribeConfigsResourceResult; s_describeconfigs_response_describeconfigsresult_describeconfigsresourceresult_DescribeConfigsSynonym; s_describedelegationtoken_Request; s_describedelegationtoken_Response; s_describedelegationtoken_request_DescribeDelegationTokenOwner; s_describedelegationtoken_response_DescribedDelegationToken; s_describedelegationtoken_response_describeddelegationtoken_DescribedDelegationTokenRenewer; s_describegroups_Request; s_describegroups_Response; s_describegroups_response_DescribedGroup; s_describegroups_response_describedgroup_DescribedGroupMember; s_describelogdirs_Request; s_describelogdirs_Response; s_describelogdirs_request_DescribableLogDirTopic; s_describelogdirs_response_DescribeLogDirsResult; s_describelogdirs_response_describelogdirsresult_DescribeLogDirsTopic; s_describelogdirs_response_describelogdirsresult_describelogdirstopic_DescribeLogDirsPartition; s_describeproducers_Request; s_describeproducers_Response; s_describeproducers_request_TopicRequest; s_describeproducers_response_TopicResponse; s_describeproducers_response_topicresponse_PartitionResponse; s_describeproducers_response_topicresponse_partitionresponse_ProducerState; s_describequorum_Request; s_describequorum_Response; s_describequorum_common_ReplicaState; s_describequorum_request_TopicData; s_describequorum_request_topicdata_PartitionData; s_describequorum_response_TopicData; s_describequorum_response_topicdata_PartitionData; s_describetransactions_Request; s_describetransactions_Response; s_describetransactions_response_TransactionState; s_describetransactions_response_transactionstate_TopicData; s_describeuserscramcredentials_Request; s_describeuserscramcredentials_Response; s_describeuserscramcredentials_request_UserName; s_describeuserscramcredentials_response_DescribeUserScramCredentialsResult; s_describeuserscramcredentials_response_describeuserscramcredentialsresult_CredentialInfo; s_electleaders_Request; s_electleaders_Response; s_electleaders_request_TopicPartitions; s_electleaders_response_ReplicaElectionResult; s_electleaders_response_replicaelectionresult_PartitionResult; s_endquorumepoch_Request; s_endquorumepoch_Response; s_endquorumepoch_request_TopicData; s_endquorumepoch_request_topicdata_PartitionData; s_endquorumepoch_response_TopicData; s_endquorumepoch_response_topicdata_PartitionData; s_endtxn_Request; s_endtxn_Response; s_envelope_Request; s_envelope_Response; s_expiredelegationtoken_Request; s_expiredelegationtoken_Response; s_fetch_Request; s_fetch_Response; s_fetch_request_FetchTopic; s_fetch_request_ForgottenTopic; s_fetch_request_fetchtopic_FetchPartition; s_fetch_response_FetchableTopicResponse; s_fetch_response_fetchabletopicresponse_PartitionData; s_fetch_response_fetchabletopicresponse_partitiondata_AbortedTransaction; s_fetch_response_fetchabletopicresponse_partitiondata_EpochEndOffset; s_fetch_response_fetchabletopicresponse_partitiondata_LeaderIdAndEpoch; s_fetch_response_fetchabletopicresponse_partitiondata_SnapshotId; s_fetchsnapshot_Request; s_fetchsnapshot_Response; s_fetchsnapshot_request_TopicSnapshot; s_fetchsnapshot_request_topicsnapshot_PartitionSnapshot; s_fetchsnapshot_request_topicsnapshot_partitionsnapshot_SnapshotId; s_fetchsnapshot_response_TopicSnapshot; s_fetchsnapshot_response_topicsnapshot_PartitionSnapshot; s_fetchsnapshot_response_topicsnapshot_partitionsnapshot_LeaderIdAndEpoch; s_fetchsnapshot_response_topicsnapshot_partitionsnapshot_SnapshotId; s_findcoordinator_Request; s_findcoordinator_Response; s_findcoordinator_response_Coordinator; s_heartbeat_Request; s_heartbeat_Response; s_incrementalalterconfigs_Request; s_incrementalalterconfigs_Response; s_incrementalalterconfigs_request_AlterConfigsResource; s_incrementalalterconfigs_request_alterconfigsresource_AlterableConfig; s_incrementalalterconfigs_response_AlterConfigsResourceResponse; s_initproducerid_Request; s_initproducerid_Response; s_joingroup_Request; s_joingroup_Response; s_joingroup_request_JoinGroupRequestProtocol; s_joingroup_response_JoinGroupResponseMember; s_leaderandisr_Request; s_leaderandisr_Response; s_leaderandisr_common_LeaderAndIsrPartitionError; s_leaderandisr_common_LeaderAndIsrPartitionState; s_leaderandisr_request_LeaderAndIsrLiveLeader; s_leaderandisr_request_LeaderAndIsrTopicState; s_leaderandisr_response_LeaderAndIsrTopicError; s_leavegroup_Request; s_leavegroup_Response; s_leavegroup_request_MemberIdentity; s_leavegroup_response_MemberResponse; s_listgroups_Request; s_listgroups_Response; s_listgroups_response_ListedGroup; s_listoffsets_Request; s_listoffsets_Response; s_listoffsets_request_ListOffsetsTopic; s_listoffsets_request_listoffsetstopic_ListOffsetsPartition; s_listoffsets_response_ListOffsetsTopicResponse; s_listoffsets_response_listoffsetstopicresponse_ListOffsetsPartitionResponse; s_listpartitionreassignments_Request; s_listpartitionreassignments_Response; s_listpartitionreassignments_request_ListPartitionReassignmentsTopics; s_listpartitionreassignments_response_OngoingTopicReassignment; s_listpartitionreassignments_response_ongoingtopicreassignment_OngoingPartitionReassignment; s_listtransactions_Request; s_listtransactions_Response; s_listtransactions_response_TransactionState; s_metadata_Request; s_metadata_Response; s_metadata_request_MetadataRequestTopic; s_metadata_response_MetadataResponseBroker; s_metadata_response_MetadataResponseTopic; s_metadata_response_metadataresponsetopic_MetadataResponsePartition; s_offsetcommit_Request; s_offsetcommit_Response; s_offsetcommit_request_OffsetCommitRequestTopic; s_offsetcommit_request_offsetcommitrequesttopic_OffsetCommitRequestPartition; s_offsetcommit_response_OffsetCommitResponseTopic; s_offsetcommit_response_offsetcommitresponsetopic_OffsetCommitResponsePartition; s_offsetdelete_Request; s_offsetdelete_Response; s_offsetdelete_request_OffsetDeleteRequestTopic; s_offsetdelete_request_offsetdeleterequesttopic_OffsetDeleteRequestPartition; s_offsetdelete_response_OffsetDeleteResponseTopic; s_offsetdelete_response_offsetdeleteresponsetopic_OffsetDeleteResponsePartition; s_offsetfetch_Request; s_offsetfetch_Response; s_offsetfetch_request_OffsetFetchRequestGroup; s_offsetfetch_request_OffsetFetchRequestTopic; s_offsetfetch_request_offsetfetchrequestgroup_OffsetFetchRequestTopics; s_offsetfetch_response_OffsetFetchResponseGroup; s_offsetfetch_response_OffsetFetchResponseTopic; s_offsetfetch_response_offsetfetchresponsegroup_OffsetFetchResponseTopics; s_offsetfetch_response_offsetfetchresponsegroup_offsetfetchresponsetopics_OffsetFetchResponsePartitions; s_offsetfetch_response_offsetfetchresponsetopic_OffsetFetchResponsePartition; s_offsetforleaderepoch_Request; s_offsetforleaderepoch_Response; s_offsetforleaderepoch_request_OffsetForLeaderTopic; s_offsetforleaderepoch_request_offsetforleadertopic_OffsetForLeaderPartition; s_offsetforleaderepoch_response_OffsetForLeaderTopicResult; s_offsetforleaderepoch_response_offsetforleadertopicresult_EpochEndOffset; s_produce_Request; s_produce_Response; s_produce_request_TopicProduceData; s_produce_request_topicproducedata_PartitionProduceData; s_produce_response_TopicProduceResponse; s_produce_response_topicproduceresponse_PartitionProduceResponse; s_produce_response_topicproduceresponse_partitionproduceresponse_BatchIndexAndErrorMessage; s_renewdelegationtoken_Request; s_renewdelegationtoken_Response; s_request_Header; s_response_Header; s_saslauthenticate_Request; s_saslauthenticate_Response; s_saslhandshake_Request; s_saslhandshake_Response; s_stopreplica_Request; s_stopreplica_Response; s_stopreplica_request_StopReplicaPartitionV0; s_stopreplica_request_StopReplicaTopicState; s_stopreplica_request_StopReplicaTopicV1; s_stopreplica_request_stopreplicatopicstate_StopReplicaPartitionState; s_stopreplica_response_StopReplicaPartitionError; s_syncgroup_Request; s_syncgroup_Response; s_syncgroup_request_SyncGroupRequestAssignment; s_txnoffsetcommit_Request; s_txnoffsetcommit_Response; s_txnoffsetcommit_request_TxnOffsetCommitRequestTopic; s_txnoffsetcommit_request_txnoffsetcommitrequesttopic_TxnOffsetCommitRequestPartition; s_txnoffsetcommit_response_TxnOffsetCommitResponseTopic; s_txnoffsetcommit_response_txnoffsetcommitresponsetopic_TxnOffsetCommitResponsePartition; s_unregisterbroker_Request; s_unregisterbroker_Response; s_updatefeatures_Request; s_updatefeatures_Response; s_updatefeatures_request_FeatureUpdateKey; s_updatefeatures_response_UpdatableFeatureResult; s_updatemetadata_Request; s_updatemetadata_Response; s_updatemetadata_common_UpdateMetadataPartitionState; s_updatemetadata_request_UpdateMetadataBroker; s_updatemetadata_request_UpdateMetadataTopicState; s_updatemetadata_request_updatemetadatabroker_UpdateMetadataEndpoint; s_vote_Request; s_vote_Response; s_vote_request_TopicData; s_vote_request_topicdata_PartitionData; s_vote_response_TopicData; s_vote_response_topicdata_PartitionData; s_writetxnmarkers_Request; s_writetxnmarkers_Response; s_writetxnmarkers_request_WritableTxnMarker; s_writetxnmarkers_request_writabletxnmarker_WritableTxnMarkerTopic; s_writetxnmarkers_response_WritableTxnMarkerResult; s_writetxnmarkers_response_writabletxnmarkerresult_WritableTxnMarkerTopicResult; s_writetxnmarkers_response_writabletxnmarkerresult_writabletxnmarkertopicresult_WritableTxnMarkerPartitionResult].
