(* GENERATED by tools/extract_specs.py from the message definitions /repo/components/kafka-protocol-go/assets/protocol_spec.  Do not edit. *)
From Coq Require Import String List ZArith.
From Verif Require Import M_GoStr M_KGen.
Import ListNotations.
Open Scope list_scope.

(* protocol_spec/AddOffsetsToTxnRequest.json *)
Definition d_AddOffsetsToTxnRequest : mspec := MSpec (lit "0-3") (lit "3+") [
 FSpec (lit "TransactionalId") (lit "string") (lit "0+") [] [] [] None false (RNone) [];
 FSpec (lit "ProducerId") (lit "int64") (lit "0+") [] [] [] None false (RNone) [];
 FSpec (lit "ProducerEpoch") (lit "int16") (lit "0+") [] [] [] None false (RNone) [];
 FSpec (lit "GroupId") (lit "string") (lit "0+") [] [] [] None false (RNone) []] [].
(* protocol_spec/AddOffsetsToTxnResponse.json *)
Definition d_AddOffsetsToTxnResponse : mspec := MSpec (lit "0-3") (lit "3+") [
 FSpec (lit "ThrottleTimeMs") (lit "int32") (lit "0+") [] [] [] None false (RNone) [];
 FSpec (lit "ErrorCode") (lit "int16") (lit "0+") [] [] [] None false (RNone) []] [].
(* protocol_spec/AddPartitionsToTxnRequest.json *)
Definition d_AddPartitionsToTxnRequest : mspec := MSpec (lit "0-3") (lit "3+") [
 FSpec (lit "TransactionalId") (lit "string") (lit "0+") [] [] [] None false (RNone) [];
 FSpec (lit "ProducerId") (lit "int64") (lit "0+") [] [] [] None false (RNone) [];
 FSpec (lit "ProducerEpoch") (lit "int16") (lit "0+") [] [] [] None false (RNone) [];
 FSpec (lit "Topics") (lit "[]AddPartitionsToTxnTopic") (lit "0+") [] [] [] None false (RNone) [
  FSpec (lit "Name") (lit "string") (lit "0+") [] [] [] None false (RNone) [];
  FSpec (lit "Partitions") (lit "[]int32") (lit "0+") [] [] [] None false (RNone) []]] [].
(* protocol_spec/AddPartitionsToTxnResponse.json *)
Definition d_AddPartitionsToTxnResponse : mspec := MSpec (lit "0-3") (lit "3+") [
 FSpec (lit "ThrottleTimeMs") (lit "int32") (lit "0+") [] [] [] None false (RNone) [];
 FSpec (lit "Results") (lit "[]AddPartitionsToTxnTopicResult") (lit "0+") [] [] [] None false (RNone) [
  FSpec (lit "Name") (lit "string") (lit "0+") [] [] [] None false (RNone) [];
  FSpec (lit "Results") (lit "[]AddPartitionsToTxnPartitionResult") (lit "0+") [] [] [] None false (RNone) [
   FSpec (lit "PartitionIndex") (lit "int32") (lit "0+") [] [] [] None false (RNone) [];
   FSpec (lit "ErrorCode") (lit "int16") (lit "0+") [] [] [] None false (RNone) []]]] [].
(* protocol_spec/AllocateProducerIdsRequest.json *)
Definition d_AllocateProducerIdsRequest : mspec := MSpec (lit "0") (lit "0+") [
 FSpec (lit "BrokerId") (lit "int32") (lit "0+") [] [] [] None false (RNone) [];
 FSpec (lit "BrokerEpoch") (lit "int64") (lit "0+") [] [] [] None false (RStr (lit "-1")) []] [].
(* protocol_spec/AllocateProducerIdsResponse.json *)
Definition d_AllocateProducerIdsResponse : mspec := MSpec (lit "0") (lit "0+") [
 FSpec (lit "ThrottleTimeMs") (lit "int32") (lit "0+") [] [] [] None false (RNone) [];
 FSpec (lit "ErrorCode") (lit "int16") (lit "0+") [] [] [] None false (RNone) [];
 FSpec (lit "ProducerIdStart") (lit "int64") (lit "0+") [] [] [] None false (RNone) [];
 FSpec (lit "ProducerIdLen") (lit "int32") (lit "0+") [] [] [] None false (RNone) []] [].
(* protocol_spec/AlterClientQuotasRequest.json *)
Definition d_AlterClientQuotasRequest : mspec := MSpec (lit "0-1") (lit "1+") [
 FSpec (lit "Entries") (lit "[]EntryData") (lit "0+") [] [] [] None false (RNone) [
  FSpec (lit "Entity") (lit "[]EntityData") (lit "0+") [] [] [] None false (RNone) [
   FSpec (lit "EntityType") (lit "string") (lit "0+") [] [] [] None false (RNone) [];
   FSpec (lit "EntityName") (lit "string") (lit "0+") [] (lit "0+") [] None false (RNone) []];
  FSpec (lit "Ops") (lit "[]OpData") (lit "0+") [] [] [] None false (RNone) [
   FSpec (lit "Key") (lit "string") (lit "0+") [] [] [] None false (RNone) [];
   FSpec (lit "Value") (lit "float64") (lit "0+") [] [] [] None false (RNone) [];
   FSpec (lit "Remove") (lit "bool") (lit "0+") [] [] [] None false (RNone) []]];
 FSpec (lit "ValidateOnly") (lit "bool") (lit "0+") [] [] [] None false (RNone) []] [].
(* protocol_spec/AlterClientQuotasResponse.json *)
Definition d_AlterClientQuotasResponse : mspec := MSpec (lit "0-1") (lit "1+") [
 FSpec (lit "ThrottleTimeMs") (lit "int32") (lit "0+") [] [] [] None false (RNone) [];
 FSpec (lit "Entries") (lit "[]EntryData") (lit "0+") [] [] [] None false (RNone) [
  FSpec (lit "ErrorCode") (lit "int16") (lit "0+") [] [] [] None false (RNone) [];
  FSpec (lit "ErrorMessage") (lit "string") (lit "0+") [] (lit "0+") [] None false (RNone) [];
  FSpec (lit "Entity") (lit "[]EntityData") (lit "0+") [] [] [] None false (RNone) [
   FSpec (lit "EntityType") (lit "string") (lit "0+") [] [] [] None false (RNone) [];
   FSpec (lit "EntityName") (lit "string") (lit "0+") [] (lit "0+") [] None false (RNone) []]]] [].
(* protocol_spec/AlterConfigsRequest.json *)
Definition d_AlterConfigsRequest : mspec := MSpec (lit "0-2") (lit "2+") [
 FSpec (lit "Resources") (lit "[]AlterConfigsResource") (lit "0+") [] [] [] None false (RNone) [
  FSpec (lit "ResourceType") (lit "int8") (lit "0+") [] [] [] None false (RNone) [];
  FSpec (lit "ResourceName") (lit "string") (lit "0+") [] [] [] None false (RNone) [];
  FSpec (lit "Configs") (lit "[]AlterableConfig") (lit "0+") [] [] [] None false (RNone) [
   FSpec (lit "Name") (lit "string") (lit "0+") [] [] [] None false (RNone) [];
   FSpec (lit "Value") (lit "string") (lit "0+") [] (lit "0+") [] None false (RNone) []]];
 FSpec (lit "ValidateOnly") (lit "bool") (lit "0+") [] [] [] None false (RNone) []] [].
(* protocol_spec/AlterConfigsResponse.json *)
Definition d_AlterConfigsResponse : mspec := MSpec (lit "0-2") (lit "2+") [
 FSpec (lit "ThrottleTimeMs") (lit "int32") (lit "0+") [] [] [] None false (RNone) [];
 FSpec (lit "Responses") (lit "[]AlterConfigsResourceResponse") (lit "0+") [] [] [] None false (RNone) [
  FSpec (lit "ErrorCode") (lit "int16") (lit "0+") [] [] [] None false (RNone) [];
  FSpec (lit "ErrorMessage") (lit "string") (lit "0+") [] (lit "0+") [] None false (RNone) [];
  FSpec (lit "ResourceType") (lit "int8") (lit "0+") [] [] [] None false (RNone) [];
  FSpec (lit "ResourceName") (lit "string") (lit "0+") [] [] [] None false (RNone) []]] [].
(* protocol_spec/AlterPartitionReassignmentsRequest.json *)
Definition d_AlterPartitionReassignmentsRequest : mspec := MSpec (lit "0") (lit "0+") [
 FSpec (lit "TimeoutMs") (lit "int32") (lit "0+") [] [] [] None false (RStr (lit "60000")) [];
 FSpec (lit "Topics") (lit "[]ReassignableTopic") (lit "0+") [] [] [] None false (RNone) [
  FSpec (lit "Name") (lit "string") (lit "0+") [] [] [] None false (RNone) [];
  FSpec (lit "Partitions") (lit "[]ReassignablePartition") (lit "0+") [] [] [] None false (RNone) [
   FSpec (lit "PartitionIndex") (lit "int32") (lit "0+") [] [] [] None false (RNone) [];
   FSpec (lit "Replicas") (lit "[]int32") (lit "0+") [] (lit "0+") [] None false (RStr (lit "null")) []]]] [].
(* protocol_spec/AlterPartitionReassignmentsResponse.json *)
Definition d_AlterPartitionReassignmentsResponse : mspec := MSpec (lit "0") (lit "0+") [
 FSpec (lit "ThrottleTimeMs") (lit "int32") (lit "0+") [] [] [] None false (RNone) [];
 FSpec (lit "ErrorCode") (lit "int16") (lit "0+") [] [] [] None false (RNone) [];
 FSpec (lit "ErrorMessage") (lit "string") (lit "0+") [] (lit "0+") [] None false (RNone) [];
 FSpec (lit "Responses") (lit "[]ReassignableTopicResponse") (lit "0+") [] [] [] None false (RNone) [
  FSpec (lit "Name") (lit "string") (lit "0+") [] [] [] None false (RNone) [];
  FSpec (lit "Partitions") (lit "[]ReassignablePartitionResponse") (lit "0+") [] [] [] None false (RNone) [
   FSpec (lit "PartitionIndex") (lit "int32") (lit "0+") [] [] [] None false (RNone) [];
   FSpec (lit "ErrorCode") (lit "int16") (lit "0+") [] [] [] None false (RNone) [];
   FSpec (lit "ErrorMessage") (lit "string") (lit "0+") [] (lit "0+") [] None false (RNone) []]]] [].
(* protocol_spec/AlterPartitionRequest.json *)
Definition d_AlterPartitionRequest : mspec := MSpec (lit "0-2") (lit "0+") [
 FSpec (lit "BrokerId") (lit "int32") (lit "0+") [] [] [] None false (RNone) [];
 FSpec (lit "BrokerEpoch") (lit "int64") (lit "0+") [] [] [] None false (RStr (lit "-1")) [];
 FSpec (lit "Topics") (lit "[]TopicData") (lit "0+") [] [] [] None false (RNone) [
  FSpec (lit "TopicName") (lit "string") (lit "0-1") [] [] [] None true (RNone) [];
  FSpec (lit "TopicId") (lit "uuid") (lit "2+") [] [] [] None true (RNone) [];
  FSpec (lit "Partitions") (lit "[]PartitionData") (lit "0+") [] [] [] None false (RNone) [
   FSpec (lit "PartitionIndex") (lit "int32") (lit "0+") [] [] [] None false (RNone) [];
   FSpec (lit "LeaderEpoch") (lit "int32") (lit "0+") [] [] [] None false (RNone) [];
   FSpec (lit "NewIsr") (lit "[]int32") (lit "0+") [] [] [] None false (RNone) [];
   FSpec (lit "LeaderRecoveryState") (lit "int8") (lit "1+") [] [] [] None false (RStr (lit "0")) [];
   FSpec (lit "PartitionEpoch") (lit "int32") (lit "0+") [] [] [] None false (RNone) []]]] [].
(* protocol_spec/AlterPartitionResponse.json *)
Definition d_AlterPartitionResponse : mspec := MSpec (lit "0-2") (lit "0+") [
 FSpec (lit "ThrottleTimeMs") (lit "int32") (lit "0+") [] [] [] None false (RNone) [];
 FSpec (lit "ErrorCode") (lit "int16") (lit "0+") [] [] [] None false (RNone) [];
 FSpec (lit "Topics") (lit "[]TopicData") (lit "0+") [] [] [] None false (RNone) [
  FSpec (lit "TopicName") (lit "string") (lit "0-1") [] [] [] None true (RNone) [];
  FSpec (lit "TopicId") (lit "uuid") (lit "2+") [] [] [] None true (RNone) [];
  FSpec (lit "Partitions") (lit "[]PartitionData") (lit "0+") [] [] [] None false (RNone) [
   FSpec (lit "PartitionIndex") (lit "int32") (lit "0+") [] [] [] None false (RNone) [];
   FSpec (lit "ErrorCode") (lit "int16") (lit "0+") [] [] [] None false (RNone) [];
   FSpec (lit "LeaderId") (lit "int32") (lit "0+") [] [] [] None false (RNone) [];
   FSpec (lit "LeaderEpoch") (lit "int32") (lit "0+") [] [] [] None false (RNone) [];
   FSpec (lit "Isr") (lit "[]int32") (lit "0+") [] [] [] None false (RNone) [];
   FSpec (lit "LeaderRecoveryState") (lit "int8") (lit "1+") [] [] [] None true (RStr (lit "0")) [];
   FSpec (lit "PartitionEpoch") (lit "int32") (lit "0+") [] [] [] None false (RNone) []]]] [].
(* protocol_spec/AlterReplicaLogDirsRequest.json *)
Definition d_AlterReplicaLogDirsRequest : mspec := MSpec (lit "0-2") (lit "2+") [
 FSpec (lit "Dirs") (lit "[]AlterReplicaLogDir") (lit "0+") [] [] [] None false (RNone) [
  FSpec (lit "Path") (lit "string") (lit "0+") [] [] [] None false (RNone) [];
  FSpec (lit "Topics") (lit "[]AlterReplicaLogDirTopic") (lit "0+") [] [] [] None false (RNone) [
   FSpec (lit "Name") (lit "string") (lit "0+") [] [] [] None false (RNone) [];
   FSpec (lit "Partitions") (lit "[]int32") (lit "0+") [] [] [] None false (RNone) []]]] [].
(* protocol_spec/AlterReplicaLogDirsResponse.json *)
Definition d_AlterReplicaLogDirsResponse : mspec := MSpec (lit "0-2") (lit "2+") [
 FSpec (lit "ThrottleTimeMs") (lit "int32") (lit "0+") [] [] [] None false (RNone) [];
 FSpec (lit "Results") (lit "[]AlterReplicaLogDirTopicResult") (lit "0+") [] [] [] None false (RNone) [
  FSpec (lit "TopicName") (lit "string") (lit "0+") [] [] [] None false (RNone) [];
  FSpec (lit "Partitions") (lit "[]AlterReplicaLogDirPartitionResult") (lit "0+") [] [] [] None false (RNone) [
   FSpec (lit "PartitionIndex") (lit "int32") (lit "0+") [] [] [] None false (RNone) [];
   FSpec (lit "ErrorCode") (lit "int16") (lit "0+") [] [] [] None false (RNone) []]]] [].
(* protocol_spec/AlterUserScramCredentialsRequest.json *)
Definition d_AlterUserScramCredentialsRequest : mspec := MSpec (lit "0") (lit "0+") [
 FSpec (lit "Deletions") (lit "[]ScramCredentialDeletion") (lit "0+") [] [] [] None false (RNone) [
  FSpec (lit "Name") (lit "string") (lit "0+") [] [] [] None false (RNone) [];
  FSpec (lit "Mechanism") (lit "int8") (lit "0+") [] [] [] None false (RNone) []];
 FSpec (lit "Upsertions") (lit "[]ScramCredentialUpsertion") (lit "0+") [] [] [] None false (RNone) [
  FSpec (lit "Name") (lit "string") (lit "0+") [] [] [] None false (RNone) [];
  FSpec (lit "Mechanism") (lit "int8") (lit "0+") [] [] [] None false (RNone) [];
  FSpec (lit "Iterations") (lit "int32") (lit "0+") [] [] [] None false (RNone) [];
  FSpec (lit "Salt") (lit "bytes") (lit "0+") [] [] [] None false (RNone) [];
  FSpec (lit "SaltedPassword") (lit "bytes") (lit "0+") [] [] [] None false (RNone) []]] [].
(* protocol_spec/AlterUserScramCredentialsResponse.json *)
Definition d_AlterUserScramCredentialsResponse : mspec := MSpec (lit "0") (lit "0+") [
 FSpec (lit "ThrottleTimeMs") (lit "int32") (lit "0+") [] [] [] None false (RNone) [];
 FSpec (lit "Results") (lit "[]AlterUserScramCredentialsResult") (lit "0+") [] [] [] None false (RNone) [
  FSpec (lit "User") (lit "string") (lit "0+") [] [] [] None false (RNone) [];
  FSpec (lit "ErrorCode") (lit "int16") (lit "0+") [] [] [] None false (RNone) [];
  FSpec (lit "ErrorMessage") (lit "string") (lit "0+") [] (lit "0+") [] None false (RNone) []]] [].
(* protocol_spec/ApiVersionsRequest.json *)
Definition d_ApiVersionsRequest : mspec := MSpec (lit "0-3") (lit "3+") [
 FSpec (lit "ClientSoftwareName") (lit "string") (lit "3+") [] [] [] None true (RNone) [];
 FSpec (lit "ClientSoftwareVersion") (lit "string") (lit "3+") [] [] [] None true (RNone) []] [].
(* protocol_spec/ApiVersionsResponse.json *)
Definition d_ApiVersionsResponse : mspec := MSpec (lit "0-3") (lit "3+") [
 FSpec (lit "ErrorCode") (lit "int16") (lit "0+") [] [] [] None false (RNone) [];
 FSpec (lit "ApiKeys") (lit "[]ApiVersion") (lit "0+") [] [] [] None false (RNone) [
  FSpec (lit "ApiKey") (lit "int16") (lit "0+") [] [] [] None false (RNone) [];
  FSpec (lit "MinVersion") (lit "int16") (lit "0+") [] [] [] None false (RNone) [];
  FSpec (lit "MaxVersion") (lit "int16") (lit "0+") [] [] [] None false (RNone) []];
 FSpec (lit "ThrottleTimeMs") (lit "int32") (lit "1+") [] [] [] None true (RNone) [];
 FSpec (lit "SupportedFeatures") (lit "[]SupportedFeatureKey") (lit "3+") [] [] (lit "3+") (Some (0)%Z) true (RNone) [
  FSpec (lit "Name") (lit "string") (lit "3+") [] [] [] None false (RNone) [];
  FSpec (lit "MinVersion") (lit "int16") (lit "3+") [] [] [] None false (RNone) [];
  FSpec (lit "MaxVersion") (lit "int16") (lit "3+") [] [] [] None false (RNone) []];
 FSpec (lit "FinalizedFeaturesEpoch") (lit "int64") (lit "3+") [] [] (lit "3+") (Some (1)%Z) true (RStr (lit "-1")) [];
 FSpec (lit "FinalizedFeatures") (lit "[]FinalizedFeatureKey") (lit "3+") [] [] (lit "3+") (Some (2)%Z) true (RNone) [
  FSpec (lit "Name") (lit "string") (lit "3+") [] [] [] None false (RNone) [];
  FSpec (lit "MaxVersionLevel") (lit "int16") (lit "3+") [] [] [] None false (RNone) [];
  FSpec (lit "MinVersionLevel") (lit "int16") (lit "3+") [] [] [] None false (RNone) []];
 FSpec (lit "ZkMigrationReady") (lit "bool") (lit "3+") [] [] (lit "3+") (Some (3)%Z) true (RStr (lit "false")) []] [].
(* protocol_spec/BeginQuorumEpochRequest.json *)
Definition d_BeginQuorumEpochRequest : mspec := MSpec (lit "0") (lit "none") [
 FSpec (lit "ClusterId") (lit "string") (lit "0+") [] (lit "0+") [] None false (RStr (lit "null")) [];
 FSpec (lit "Topics") (lit "[]TopicData") (lit "0+") [] [] [] None false (RNone) [
  FSpec (lit "TopicName") (lit "string") (lit "0+") [] [] [] None false (RNone) [];
  FSpec (lit "Partitions") (lit "[]PartitionData") (lit "0+") [] [] [] None false (RNone) [
   FSpec (lit "PartitionIndex") (lit "int32") (lit "0+") [] [] [] None false (RNone) [];
   FSpec (lit "LeaderId") (lit "int32") (lit "0+") [] [] [] None false (RNone) [];
   FSpec (lit "LeaderEpoch") (lit "int32") (lit "0+") [] [] [] None false (RNone) []]]] [].
(* protocol_spec/BeginQuorumEpochResponse.json *)
Definition d_BeginQuorumEpochResponse : mspec := MSpec (lit "0") (lit "none") [
 FSpec (lit "ErrorCode") (lit "int16") (lit "0+") [] [] [] None false (RNone) [];
 FSpec (lit "Topics") (lit "[]TopicData") (lit "0+") [] [] [] None false (RNone) [
  FSpec (lit "TopicName") (lit "string") (lit "0+") [] [] [] None false (RNone) [];
  FSpec (lit "Partitions") (lit "[]PartitionData") (lit "0+") [] [] [] None false (RNone) [
   FSpec (lit "PartitionIndex") (lit "int32") (lit "0+") [] [] [] None false (RNone) [];
   FSpec (lit "ErrorCode") (lit "int16") (lit "0+") [] [] [] None false (RNone) [];
   FSpec (lit "LeaderId") (lit "int32") (lit "0+") [] [] [] None false (RNone) [];
   FSpec (lit "LeaderEpoch") (lit "int32") (lit "0+") [] [] [] None false (RNone) []]]] [].
(* protocol_spec/BrokerHeartbeatRequest.json *)
Definition d_BrokerHeartbeatRequest : mspec := MSpec (lit "0") (lit "0+") [
 FSpec (lit "BrokerId") (lit "int32") (lit "0+") [] [] [] None false (RNone) [];
 FSpec (lit "BrokerEpoch") (lit "int64") (lit "0+") [] [] [] None false (RStr (lit "-1")) [];
 FSpec (lit "CurrentMetadataOffset") (lit "int64") (lit "0+") [] [] [] None false (RNone) [];
 FSpec (lit "WantFence") (lit "bool") (lit "0+") [] [] [] None false (RNone) [];
 FSpec (lit "WantShutDown") (lit "bool") (lit "0+") [] [] [] None false (RNone) []] [].
(* protocol_spec/BrokerHeartbeatResponse.json *)
Definition d_BrokerHeartbeatResponse : mspec := MSpec (lit "0") (lit "0+") [
 FSpec (lit "ThrottleTimeMs") (lit "int32") (lit "0+") [] [] [] None false (RNone) [];
 FSpec (lit "ErrorCode") (lit "int16") (lit "0+") [] [] [] None false (RNone) [];
 FSpec (lit "IsCaughtUp") (lit "bool") (lit "0+") [] [] [] None false (RStr (lit "false")) [];
 FSpec (lit "IsFenced") (lit "bool") (lit "0+") [] [] [] None false (RStr (lit "true")) [];
 FSpec (lit "ShouldShutDown") (lit "bool") (lit "0+") [] [] [] None false (RNone) []] [].
(* protocol_spec/BrokerRegistrationRequest.json *)
Definition d_BrokerRegistrationRequest : mspec := MSpec (lit "0-1") (lit "0+") [
 FSpec (lit "BrokerId") (lit "int32") (lit "0+") [] [] [] None false (RNone) [];
 FSpec (lit "ClusterId") (lit "string") (lit "0+") [] [] [] None false (RNone) [];
 FSpec (lit "IncarnationId") (lit "uuid") (lit "0+") [] [] [] None false (RNone) [];
 FSpec (lit "Listeners") (lit "[]Listener") (lit "0+") [] [] [] None false (RNone) [
  FSpec (lit "Name") (lit "string") (lit "0+") [] [] [] None false (RNone) [];
  FSpec (lit "Host") (lit "string") (lit "0+") [] [] [] None false (RNone) [];
  FSpec (lit "Port") (lit "uint16") (lit "0+") [] [] [] None false (RNone) [];
  FSpec (lit "SecurityProtocol") (lit "int16") (lit "0+") [] [] [] None false (RNone) []];
 FSpec (lit "Features") (lit "[]Feature") (lit "0+") [] [] [] None false (RNone) [
  FSpec (lit "Name") (lit "string") (lit "0+") [] [] [] None false (RNone) [];
  FSpec (lit "MinSupportedVersion") (lit "int16") (lit "0+") [] [] [] None false (RNone) [];
  FSpec (lit "MaxSupportedVersion") (lit "int16") (lit "0+") [] [] [] None false (RNone) []];
 FSpec (lit "Rack") (lit "string") (lit "0+") [] (lit "0+") [] None false (RNone) [];
 FSpec (lit "IsMigratingZkBroker") (lit "bool") (lit "1+") [] [] [] None false (RStr (lit "false")) []] [].
(* protocol_spec/BrokerRegistrationResponse.json *)
Definition d_BrokerRegistrationResponse : mspec := MSpec (lit "0-1") (lit "0+") [
 FSpec (lit "ThrottleTimeMs") (lit "int32") (lit "0+") [] [] [] None false (RNone) [];
 FSpec (lit "ErrorCode") (lit "int16") (lit "0+") [] [] [] None false (RNone) [];
 FSpec (lit "BrokerEpoch") (lit "int64") (lit "0+") [] [] [] None false (RStr (lit "-1")) []] [].
(* protocol_spec/ControlledShutdownRequest.json *)
Definition d_ControlledShutdownRequest : mspec := MSpec (lit "0-3") (lit "3+") [
 FSpec (lit "BrokerId") (lit "int32") (lit "0+") [] [] [] None false (RNone) [];
 FSpec (lit "BrokerEpoch") (lit "int64") (lit "2+") [] [] [] None true (RStr (lit "-1")) []] [].
(* protocol_spec/ControlledShutdownResponse.json *)
Definition d_ControlledShutdownResponse : mspec := MSpec (lit "0-3") (lit "3+") [
 FSpec (lit "ErrorCode") (lit "int16") (lit "0+") [] [] [] None false (RNone) [];
 FSpec (lit "RemainingPartitions") (lit "[]RemainingPartition") (lit "0+") [] [] [] None false (RNone) [
  FSpec (lit "TopicName") (lit "string") (lit "0+") [] [] [] None false (RNone) [];
  FSpec (lit "PartitionIndex") (lit "int32") (lit "0+") [] [] [] None false (RNone) []]] [].
(* protocol_spec/CreateAclsRequest.json *)
Definition d_CreateAclsRequest : mspec := MSpec (lit "0-3") (lit "2+") [
 FSpec (lit "Creations") (lit "[]AclCreation") (lit "0+") [] [] [] None false (RNone) [
  FSpec (lit "ResourceType") (lit "int8") (lit "0+") [] [] [] None false (RNone) [];
  FSpec (lit "ResourceName") (lit "string") (lit "0+") [] [] [] None false (RNone) [];
  FSpec (lit "ResourcePatternType") (lit "int8") (lit "1+") [] [] [] None false (RStr (lit "3")) [];
  FSpec (lit "Principal") (lit "string") (lit "0+") [] [] [] None false (RNone) [];
  FSpec (lit "Host") (lit "string") (lit "0+") [] [] [] None false (RNone) [];
  FSpec (lit "Operation") (lit "int8") (lit "0+") [] [] [] None false (RNone) [];
  FSpec (lit "PermissionType") (lit "int8") (lit "0+") [] [] [] None false (RNone) []]] [].
(* protocol_spec/CreateAclsResponse.json *)
Definition d_CreateAclsResponse : mspec := MSpec (lit "0-3") (lit "2+") [
 FSpec (lit "ThrottleTimeMs") (lit "int32") (lit "0+") [] [] [] None false (RNone) [];
 FSpec (lit "Results") (lit "[]AclCreationResult") (lit "0+") [] [] [] None false (RNone) [
  FSpec (lit "ErrorCode") (lit "int16") (lit "0+") [] [] [] None false (RNone) [];
  FSpec (lit "ErrorMessage") (lit "string") (lit "0+") [] (lit "0+") [] None false (RNone) []]] [].
(* protocol_spec/CreateDelegationTokenRequest.json *)
Definition d_CreateDelegationTokenRequest : mspec := MSpec (lit "0-3") (lit "2+") [
 FSpec (lit "OwnerPrincipalType") (lit "string") (lit "3+") [] (lit "3+") [] None false (RNone) [];
 FSpec (lit "OwnerPrincipalName") (lit "string") (lit "3+") [] (lit "3+") [] None false (RNone) [];
 FSpec (lit "Renewers") (lit "[]CreatableRenewers") (lit "0+") [] [] [] None false (RNone) [
  FSpec (lit "PrincipalType") (lit "string") (lit "0+") [] [] [] None false (RNone) [];
  FSpec (lit "PrincipalName") (lit "string") (lit "0+") [] [] [] None false (RNone) []];
 FSpec (lit "MaxLifetimeMs") (lit "int64") (lit "0+") [] [] [] None false (RNone) []] [].
(* protocol_spec/CreateDelegationTokenResponse.json *)
Definition d_CreateDelegationTokenResponse : mspec := MSpec (lit "0-3") (lit "2+") [
 FSpec (lit "ErrorCode") (lit "int16") (lit "0+") [] [] [] None false (RNone) [];
 FSpec (lit "PrincipalType") (lit "string") (lit "0+") [] [] [] None false (RNone) [];
 FSpec (lit "PrincipalName") (lit "string") (lit "0+") [] [] [] None false (RNone) [];
 FSpec (lit "TokenRequesterPrincipalType") (lit "string") (lit "3+") [] [] [] None false (RNone) [];
 FSpec (lit "TokenRequesterPrincipalName") (lit "string") (lit "3+") [] [] [] None false (RNone) [];
 FSpec (lit "IssueTimestampMs") (lit "int64") (lit "0+") [] [] [] None false (RNone) [];
 FSpec (lit "ExpiryTimestampMs") (lit "int64") (lit "0+") [] [] [] None false (RNone) [];
 FSpec (lit "MaxTimestampMs") (lit "int64") (lit "0+") [] [] [] None false (RNone) [];
 FSpec (lit "TokenId") (lit "string") (lit "0+") [] [] [] None false (RNone) [];
 FSpec (lit "Hmac") (lit "bytes") (lit "0+") [] [] [] None false (RNone) [];
 FSpec (lit "ThrottleTimeMs") (lit "int32") (lit "0+") [] [] [] None false (RNone) []] [].
(* protocol_spec/CreatePartitionsRequest.json *)
Definition d_CreatePartitionsRequest : mspec := MSpec (lit "0-3") (lit "2+") [
 FSpec (lit "Topics") (lit "[]CreatePartitionsTopic") (lit "0+") [] [] [] None false (RNone) [
  FSpec (lit "Name") (lit "string") (lit "0+") [] [] [] None false (RNone) [];
  FSpec (lit "Count") (lit "int32") (lit "0+") [] [] [] None false (RNone) [];
  FSpec (lit "Assignments") (lit "[]CreatePartitionsAssignment") (lit "0+") [] (lit "0+") [] None false (RNone) [
   FSpec (lit "BrokerIds") (lit "[]int32") (lit "0+") [] [] [] None false (RNone) []]];
 FSpec (lit "TimeoutMs") (lit "int32") (lit "0+") [] [] [] None false (RNone) [];
 FSpec (lit "ValidateOnly") (lit "bool") (lit "0+") [] [] [] None false (RNone) []] [].
(* protocol_spec/CreatePartitionsResponse.json *)
Definition d_CreatePartitionsResponse : mspec := MSpec (lit "0-3") (lit "2+") [
 FSpec (lit "ThrottleTimeMs") (lit "int32") (lit "0+") [] [] [] None false (RNone) [];
 FSpec (lit "Results") (lit "[]CreatePartitionsTopicResult") (lit "0+") [] [] [] None false (RNone) [
  FSpec (lit "Name") (lit "string") (lit "0+") [] [] [] None false (RNone) [];
  FSpec (lit "ErrorCode") (lit "int16") (lit "0+") [] [] [] None false (RNone) [];
  FSpec (lit "ErrorMessage") (lit "string") (lit "0+") [] (lit "0+") [] None false (RStr (lit "null")) []]] [].
(* protocol_spec/CreateTopicsRequest.json *)
Definition d_CreateTopicsRequest : mspec := MSpec (lit "0-7") (lit "5+") [
 FSpec (lit "Topics") (lit "[]CreatableTopic") (lit "0+") [] [] [] None false (RNone) [
  FSpec (lit "Name") (lit "string") (lit "0+") [] [] [] None false (RNone) [];
  FSpec (lit "NumPartitions") (lit "int32") (lit "0+") [] [] [] None false (RNone) [];
  FSpec (lit "ReplicationFactor") (lit "int16") (lit "0+") [] [] [] None false (RNone) [];
  FSpec (lit "Assignments") (lit "[]CreatableReplicaAssignment") (lit "0+") [] [] [] None false (RNone) [
   FSpec (lit "PartitionIndex") (lit "int32") (lit "0+") [] [] [] None false (RNone) [];
   FSpec (lit "BrokerIds") (lit "[]int32") (lit "0+") [] [] [] None false (RNone) []];
  FSpec (lit "Configs") (lit "[]CreateableTopicConfig") (lit "0+") [] [] [] None false (RNone) [
   FSpec (lit "Name") (lit "string") (lit "0+") [] [] [] None false (RNone) [];
   FSpec (lit "Value") (lit "string") (lit "0+") [] (lit "0+") [] None false (RNone) []]];
 FSpec (lit "timeoutMs") (lit "int32") (lit "0+") [] [] [] None false (RStr (lit "60000")) [];
 FSpec (lit "validateOnly") (lit "bool") (lit "1+") [] [] [] None false (RStr (lit "false")) []] [].
(* protocol_spec/CreateTopicsResponse.json *)
Definition d_CreateTopicsResponse : mspec := MSpec (lit "0-7") (lit "5+") [
 FSpec (lit "ThrottleTimeMs") (lit "int32") (lit "2+") [] [] [] None true (RNone) [];
 FSpec (lit "Topics") (lit "[]CreatableTopicResult") (lit "0+") [] [] [] None false (RNone) [
  FSpec (lit "Name") (lit "string") (lit "0+") [] [] [] None false (RNone) [];
  FSpec (lit "TopicId") (lit "uuid") (lit "7+") [] [] [] None true (RNone) [];
  FSpec (lit "ErrorCode") (lit "int16") (lit "0+") [] [] [] None false (RNone) [];
  FSpec (lit "ErrorMessage") (lit "string") (lit "1+") [] (lit "0+") [] None true (RNone) [];
  FSpec (lit "TopicConfigErrorCode") (lit "int16") (lit "5+") [] [] (lit "5+") (Some (0)%Z) true (RNone) [];
  FSpec (lit "NumPartitions") (lit "int32") (lit "5+") [] [] [] None true (RStr (lit "-1")) [];
  FSpec (lit "ReplicationFactor") (lit "int16") (lit "5+") [] [] [] None true (RStr (lit "-1")) [];
  FSpec (lit "Configs") (lit "[]CreatableTopicConfigs") (lit "5+") [] (lit "5+") [] None true (RNone) [
   FSpec (lit "Name") (lit "string") (lit "5+") [] [] [] None false (RNone) [];
   FSpec (lit "Value") (lit "string") (lit "5+") [] (lit "5+") [] None false (RNone) [];
   FSpec (lit "ReadOnly") (lit "bool") (lit "5+") [] [] [] None false (RNone) [];
   FSpec (lit "ConfigSource") (lit "int8") (lit "5+") [] [] [] None true (RStr (lit "-1")) [];
   FSpec (lit "IsSensitive") (lit "bool") (lit "5+") [] [] [] None false (RNone) []]]] [].
(* protocol_spec/DeleteAclsRequest.json *)
Definition d_DeleteAclsRequest : mspec := MSpec (lit "0-3") (lit "2+") [
 FSpec (lit "Filters") (lit "[]DeleteAclsFilter") (lit "0+") [] [] [] None false (RNone) [
  FSpec (lit "ResourceTypeFilter") (lit "int8") (lit "0+") [] [] [] None false (RNone) [];
  FSpec (lit "ResourceNameFilter") (lit "string") (lit "0+") [] (lit "0+") [] None false (RNone) [];
  FSpec (lit "PatternTypeFilter") (lit "int8") (lit "1+") [] [] [] None false (RStr (lit "3")) [];
  FSpec (lit "PrincipalFilter") (lit "string") (lit "0+") [] (lit "0+") [] None false (RNone) [];
  FSpec (lit "HostFilter") (lit "string") (lit "0+") [] (lit "0+") [] None false (RNone) [];
  FSpec (lit "Operation") (lit "int8") (lit "0+") [] [] [] None false (RNone) [];
  FSpec (lit "PermissionType") (lit "int8") (lit "0+") [] [] [] None false (RNone) []]] [].
(* protocol_spec/DeleteAclsResponse.json *)
Definition d_DeleteAclsResponse : mspec := MSpec (lit "0-3") (lit "2+") [
 FSpec (lit "ThrottleTimeMs") (lit "int32") (lit "0+") [] [] [] None false (RNone) [];
 FSpec (lit "FilterResults") (lit "[]DeleteAclsFilterResult") (lit "0+") [] [] [] None false (RNone) [
  FSpec (lit "ErrorCode") (lit "int16") (lit "0+") [] [] [] None false (RNone) [];
  FSpec (lit "ErrorMessage") (lit "string") (lit "0+") [] (lit "0+") [] None false (RNone) [];
  FSpec (lit "MatchingAcls") (lit "[]DeleteAclsMatchingAcl") (lit "0+") [] [] [] None false (RNone) [
   FSpec (lit "ErrorCode") (lit "int16") (lit "0+") [] [] [] None false (RNone) [];
   FSpec (lit "ErrorMessage") (lit "string") (lit "0+") [] (lit "0+") [] None false (RNone) [];
   FSpec (lit "ResourceType") (lit "int8") (lit "0+") [] [] [] None false (RNone) [];
   FSpec (lit "ResourceName") (lit "string") (lit "0+") [] [] [] None false (RNone) [];
   FSpec (lit "PatternType") (lit "int8") (lit "1+") [] [] [] None false (RStr (lit "3")) [];
   FSpec (lit "Principal") (lit "string") (lit "0+") [] [] [] None false (RNone) [];
   FSpec (lit "Host") (lit "string") (lit "0+") [] [] [] None false (RNone) [];
   FSpec (lit "Operation") (lit "int8") (lit "0+") [] [] [] None false (RNone) [];
   FSpec (lit "PermissionType") (lit "int8") (lit "0+") [] [] [] None false (RNone) []]]] [].
(* protocol_spec/DeleteGroupsRequest.json *)
Definition d_DeleteGroupsRequest : mspec := MSpec (lit "0-2") (lit "2+") [
 FSpec (lit "GroupsNames") (lit "[]string") (lit "0+") [] [] [] None false (RNone) []] [].
(* protocol_spec/DeleteGroupsResponse.json *)
Definition d_DeleteGroupsResponse : mspec := MSpec (lit "0-2") (lit "2+") [
 FSpec (lit "ThrottleTimeMs") (lit "int32") (lit "0+") [] [] [] None false (RNone) [];
 FSpec (lit "Results") (lit "[]DeletableGroupResult") (lit "0+") [] [] [] None false (RNone) [
  FSpec (lit "GroupId") (lit "string") (lit "0+") [] [] [] None false (RNone) [];
  FSpec (lit "ErrorCode") (lit "int16") (lit "0+") [] [] [] None false (RNone) []]] [].
(* protocol_spec/DeleteRecordsRequest.json *)
Definition d_DeleteRecordsRequest : mspec := MSpec (lit "0-2") (lit "2+") [
 FSpec (lit "Topics") (lit "[]DeleteRecordsTopic") (lit "0+") [] [] [] None false (RNone) [
  FSpec (lit "Name") (lit "string") (lit "0+") [] [] [] None false (RNone) [];
  FSpec (lit "Partitions") (lit "[]DeleteRecordsPartition") (lit "0+") [] [] [] None false (RNone) [
   FSpec (lit "PartitionIndex") (lit "int32") (lit "0+") [] [] [] None false (RNone) [];
   FSpec (lit "Offset") (lit "int64") (lit "0+") [] [] [] None false (RNone) []]];
 FSpec (lit "TimeoutMs") (lit "int32") (lit "0+") [] [] [] None false (RNone) []] [].
(* protocol_spec/DeleteRecordsResponse.json *)
Definition d_DeleteRecordsResponse : mspec := MSpec (lit "0-2") (lit "2+") [
 FSpec (lit "ThrottleTimeMs") (lit "int32") (lit "0+") [] [] [] None false (RNone) [];
 FSpec (lit "Topics") (lit "[]DeleteRecordsTopicResult") (lit "0+") [] [] [] None false (RNone) [
  FSpec (lit "Name") (lit "string") (lit "0+") [] [] [] None false (RNone) [];
  FSpec (lit "Partitions") (lit "[]DeleteRecordsPartitionResult") (lit "0+") [] [] [] None false (RNone) [
   FSpec (lit "PartitionIndex") (lit "int32") (lit "0+") [] [] [] None false (RNone) [];
   FSpec (lit "LowWatermark") (lit "int64") (lit "0+") [] [] [] None false (RNone) [];
   FSpec (lit "ErrorCode") (lit "int16") (lit "0+") [] [] [] None false (RNone) []]]] [].
(* protocol_spec/DeleteTopicsRequest.json *)
Definition d_DeleteTopicsRequest : mspec := MSpec (lit "0-6") (lit "4+") [
 FSpec (lit "Topics") (lit "[]DeleteTopicState") (lit "6+") [] [] [] None false (RNone) [
  FSpec (lit "Name") (lit "string") (lit "6+") [] (lit "6+") [] None false (RStr (lit "null")) [];
  FSpec (lit "TopicId") (lit "uuid") (lit "6+") [] [] [] None false (RNone) []];
 FSpec (lit "TopicNames") (lit "[]string") (lit "0-5") [] [] [] None true (RNone) [];
 FSpec (lit "TimeoutMs") (lit "int32") (lit "0+") [] [] [] None false (RNone) []] [].
(* protocol_spec/DeleteTopicsResponse.json *)
Definition d_DeleteTopicsResponse : mspec := MSpec (lit "0-6") (lit "4+") [
 FSpec (lit "ThrottleTimeMs") (lit "int32") (lit "1+") [] [] [] None true (RNone) [];
 FSpec (lit "Responses") (lit "[]DeletableTopicResult") (lit "0+") [] [] [] None false (RNone) [
  FSpec (lit "Name") (lit "string") (lit "0+") [] (lit "6+") [] None false (RNone) [];
  FSpec (lit "TopicId") (lit "uuid") (lit "6+") [] [] [] None true (RNone) [];
  FSpec (lit "ErrorCode") (lit "int16") (lit "0+") [] [] [] None false (RNone) [];
  FSpec (lit "ErrorMessage") (lit "string") (lit "5+") [] (lit "5+") [] None true (RStr (lit "null")) []]] [].
(* protocol_spec/DescribeAclsRequest.json *)
Definition d_DescribeAclsRequest : mspec := MSpec (lit "0-3") (lit "2+") [
 FSpec (lit "ResourceTypeFilter") (lit "int8") (lit "0+") [] [] [] None false (RNone) [];
 FSpec (lit "ResourceNameFilter") (lit "string") (lit "0+") [] (lit "0+") [] None false (RNone) [];
 FSpec (lit "PatternTypeFilter") (lit "int8") (lit "1+") [] [] [] None false (RStr (lit "3")) [];
 FSpec (lit "PrincipalFilter") (lit "string") (lit "0+") [] (lit "0+") [] None false (RNone) [];
 FSpec (lit "HostFilter") (lit "string") (lit "0+") [] (lit "0+") [] None false (RNone) [];
 FSpec (lit "Operation") (lit "int8") (lit "0+") [] [] [] None false (RNone) [];
 FSpec (lit "PermissionType") (lit "int8") (lit "0+") [] [] [] None false (RNone) []] [].
(* protocol_spec/DescribeAclsResponse.json *)
Definition d_DescribeAclsResponse : mspec := MSpec (lit "0-3") (lit "2+") [
 FSpec (lit "ThrottleTimeMs") (lit "int32") (lit "0+") [] [] [] None false (RNone) [];
 FSpec (lit "ErrorCode") (lit "int16") (lit "0+") [] [] [] None false (RNone) [];
 FSpec (lit "ErrorMessage") (lit "string") (lit "0+") [] (lit "0+") [] None false (RNone) [];
 FSpec (lit "Resources") (lit "[]DescribeAclsResource") (lit "0+") [] [] [] None false (RNone) [
  FSpec (lit "ResourceType") (lit "int8") (lit "0+") [] [] [] None false (RNone) [];
  FSpec (lit "ResourceName") (lit "string") (lit "0+") [] [] [] None false (RNone) [];
  FSpec (lit "PatternType") (lit "int8") (lit "1+") [] [] [] None false (RStr (lit "3")) [];
  FSpec (lit "Acls") (lit "[]AclDescription") (lit "0+") [] [] [] None false (RNone) [
   FSpec (lit "Principal") (lit "string") (lit "0+") [] [] [] None false (RNone) [];
   FSpec (lit "Host") (lit "string") (lit "0+") [] [] [] None false (RNone) [];
   FSpec (lit "Operation") (lit "int8") (lit "0+") [] [] [] None false (RNone) [];
   FSpec (lit "PermissionType") (lit "int8") (lit "0+") [] [] [] None false (RNone) []]]] [].
(* protocol_spec/DescribeClientQuotasRequest.json *)
Definition d_DescribeClientQuotasRequest : mspec := MSpec (lit "0-1") (lit "1+") [
 FSpec (lit "Components") (lit "[]ComponentData") (lit "0+") [] [] [] None false (RNone) [
  FSpec (lit "EntityType") (lit "string") (lit "0+") [] [] [] None false (RNone) [];
  FSpec (lit "MatchType") (lit "int8") (lit "0+") [] [] [] None false (RNone) [];
  FSpec (lit "Match") (lit "string") (lit "0+") [] (lit "0+") [] None false (RNone) []];
 FSpec (lit "Strict") (lit "bool") (lit "0+") [] [] [] None false (RNone) []] [].
(* protocol_spec/DescribeClientQuotasResponse.json *)
Definition d_DescribeClientQuotasResponse : mspec := MSpec (lit "0-1") (lit "1+") [
 FSpec (lit "ThrottleTimeMs") (lit "int32") (lit "0+") [] [] [] None false (RNone) [];
 FSpec (lit "ErrorCode") (lit "int16") (lit "0+") [] [] [] None false (RNone) [];
 FSpec (lit "ErrorMessage") (lit "string") (lit "0+") [] (lit "0+") [] None false (RNone) [];
 FSpec (lit "Entries") (lit "[]EntryData") (lit "0+") [] (lit "0+") [] None false (RNone) [
  FSpec (lit "Entity") (lit "[]EntityData") (lit "0+") [] [] [] None false (RNone) [
   FSpec (lit "EntityType") (lit "string") (lit "0+") [] [] [] None false (RNone) [];
   FSpec (lit "EntityName") (lit "string") (lit "0+") [] (lit "0+") [] None false (RNone) []];
  FSpec (lit "Values") (lit "[]ValueData") (lit "0+") [] [] [] None false (RNone) [
   FSpec (lit "Key") (lit "string") (lit "0+") [] [] [] None false (RNone) [];
   FSpec (lit "Value") (lit "float64") (lit "0+") [] [] [] None false (RNone) []]]] [].
(* protocol_spec/DescribeClusterRequest.json *)
Definition d_DescribeClusterRequest : mspec := MSpec (lit "0") (lit "0+") [
 FSpec (lit "IncludeClusterAuthorizedOperations") (lit "bool") (lit "0+") [] [] [] None false (RNone) []] [].
(* protocol_spec/DescribeClusterResponse.json *)
Definition d_DescribeClusterResponse : mspec := MSpec (lit "0") (lit "0+") [
 FSpec (lit "ThrottleTimeMs") (lit "int32") (lit "0+") [] [] [] None false (RNone) [];
 FSpec (lit "ErrorCode") (lit "int16") (lit "0+") [] [] [] None false (RNone) [];
 FSpec (lit "ErrorMessage") (lit "string") (lit "0+") [] (lit "0+") [] None false (RStr (lit "null")) [];
 FSpec (lit "ClusterId") (lit "string") (lit "0+") [] [] [] None false (RNone) [];
 FSpec (lit "ControllerId") (lit "int32") (lit "0+") [] [] [] None false (RStr (lit "-1")) [];
 FSpec (lit "Brokers") (lit "[]DescribeClusterBroker") (lit "0+") [] [] [] None false (RNone) [
  FSpec (lit "BrokerId") (lit "int32") (lit "0+") [] [] [] None false (RNone) [];
  FSpec (lit "Host") (lit "string") (lit "0+") [] [] [] None false (RNone) [];
  FSpec (lit "Port") (lit "int32") (lit "0+") [] [] [] None false (RNone) [];
  FSpec (lit "Rack") (lit "string") (lit "0+") [] (lit "0+") [] None false (RStr (lit "null")) []];
 FSpec (lit "ClusterAuthorizedOperations") (lit "int32") (lit "0+") [] [] [] None false (RStr (lit "-2147483648")) []] [].
(* protocol_spec/DescribeConfigsRequest.json *)
Definition d_DescribeConfigsRequest : mspec := MSpec (lit "0-4") (lit "4+") [
 FSpec (lit "Resources") (lit "[]DescribeConfigsResource") (lit "0+") [] [] [] None false (RNone) [
  FSpec (lit "ResourceType") (lit "int8") (lit "0+") [] [] [] None false (RNone) [];
  FSpec (lit "ResourceName") (lit "string") (lit "0+") [] [] [] None false (RNone) [];
  FSpec (lit "ConfigurationKeys") (lit "[]string") (lit "0+") [] (lit "0+") [] None false (RNone) []];
 FSpec (lit "IncludeSynonyms") (lit "bool") (lit "1+") [] [] [] None false (RStr (lit "false")) [];
 FSpec (lit "IncludeDocumentation") (lit "bool") (lit "3+") [] [] [] None false (RStr (lit "false")) []] [].
(* protocol_spec/DescribeConfigsResponse.json *)
Definition d_DescribeConfigsResponse : mspec := MSpec (lit "0-4") (lit "4+") [
 FSpec (lit "ThrottleTimeMs") (lit "int32") (lit "0+") [] [] [] None false (RNone) [];
 FSpec (lit "Results") (lit "[]DescribeConfigsResult") (lit "0+") [] [] [] None false (RNone) [
  FSpec (lit "ErrorCode") (lit "int16") (lit "0+") [] [] [] None false (RNone) [];
  FSpec (lit "ErrorMessage") (lit "string") (lit "0+") [] (lit "0+") [] None false (RNone) [];
  FSpec (lit "ResourceType") (lit "int8") (lit "0+") [] [] [] None false (RNone) [];
  FSpec (lit "ResourceName") (lit "string") (lit "0+") [] [] [] None false (RNone) [];
  FSpec (lit "Configs") (lit "[]DescribeConfigsResourceResult") (lit "0+") [] [] [] None false (RNone) [
   FSpec (lit "Name") (lit "string") (lit "0+") [] [] [] None false (RNone) [];
   FSpec (lit "Value") (lit "string") (lit "0+") [] (lit "0+") [] None false (RNone) [];
   FSpec (lit "ReadOnly") (lit "bool") (lit "0+") [] [] [] None false (RNone) [];
   FSpec (lit "IsDefault") (lit "bool") (lit "0") [] [] [] None false (RNone) [];
   FSpec (lit "ConfigSource") (lit "int8") (lit "1+") [] [] [] None true (RStr (lit "-1")) [];
   FSpec (lit "IsSensitive") (lit "bool") (lit "0+") [] [] [] None false (RNone) [];
   FSpec (lit "Synonyms") (lit "[]DescribeConfigsSynonym") (lit "1+") [] [] [] None true (RNone) [
    FSpec (lit "Name") (lit "string") (lit "1+") [] [] [] None false (RNone) [];
    FSpec (lit "Value") (lit "string") (lit "1+") [] (lit "0+") [] None false (RNone) [];
    FSpec (lit "Source") (lit "int8") (lit "1+") [] [] [] None false (RNone) []];
   FSpec (lit "ConfigType") (lit "int8") (lit "3+") [] [] [] None true (RStr (lit "0")) [];
   FSpec (lit "Documentation") (lit "string") (lit "3+") [] (lit "0+") [] None true (RNone) []]]] [].
(* protocol_spec/DescribeDelegationTokenRequest.json *)
Definition d_DescribeDelegationTokenRequest : mspec := MSpec (lit "0-3") (lit "2+") [
 FSpec (lit "Owners") (lit "[]DescribeDelegationTokenOwner") (lit "0+") [] (lit "0+") [] None false (RNone) [
  FSpec (lit "PrincipalType") (lit "string") (lit "0+") [] [] [] None false (RNone) [];
  FSpec (lit "PrincipalName") (lit "string") (lit "0+") [] [] [] None false (RNone) []]] [].
(* protocol_spec/DescribeDelegationTokenResponse.json *)
Definition d_DescribeDelegationTokenResponse : mspec := MSpec (lit "0-3") (lit "2+") [
 FSpec (lit "ErrorCode") (lit "int16") (lit "0+") [] [] [] None false (RNone) [];
 FSpec (lit "Tokens") (lit "[]DescribedDelegationToken") (lit "0+") [] [] [] None false (RNone) [
  FSpec (lit "PrincipalType") (lit "string") (lit "0+") [] [] [] None false (RNone) [];
  FSpec (lit "PrincipalName") (lit "string") (lit "0+") [] [] [] None false (RNone) [];
  FSpec (lit "TokenRequesterPrincipalType") (lit "string") (lit "3+") [] [] [] None false (RNone) [];
  FSpec (lit "TokenRequesterPrincipalName") (lit "string") (lit "3+") [] [] [] None false (RNone) [];
  FSpec (lit "IssueTimestamp") (lit "int64") (lit "0+") [] [] [] None false (RNone) [];
  FSpec (lit "ExpiryTimestamp") (lit "int64") (lit "0+") [] [] [] None false (RNone) [];
  FSpec (lit "MaxTimestamp") (lit "int64") (lit "0+") [] [] [] None false (RNone) [];
  FSpec (lit "TokenId") (lit "string") (lit "0+") [] [] [] None false (RNone) [];
  FSpec (lit "Hmac") (lit "bytes") (lit "0+") [] [] [] None false (RNone) [];
  FSpec (lit "Renewers") (lit "[]DescribedDelegationTokenRenewer") (lit "0+") [] [] [] None false (RNone) [
   FSpec (lit "PrincipalType") (lit "string") (lit "0+") [] [] [] None false (RNone) [];
   FSpec (lit "PrincipalName") (lit "string") (lit "0+") [] [] [] None false (RNone) []]];
 FSpec (lit "ThrottleTimeMs") (lit "int32") (lit "0+") [] [] [] None false (RNone) []] [].
(* protocol_spec/DescribeGroupsRequest.json *)
Definition d_DescribeGroupsRequest : mspec := MSpec (lit "0-5") (lit "5+") [
 FSpec (lit "Groups") (lit "[]string") (lit "0+") [] [] [] None false (RNone) [];
 FSpec (lit "IncludeAuthorizedOperations") (lit "bool") (lit "3+") [] [] [] None false (RNone) []] [].
(* protocol_spec/DescribeGroupsResponse.json *)
Definition d_DescribeGroupsResponse : mspec := MSpec (lit "0-5") (lit "5+") [
 FSpec (lit "ThrottleTimeMs") (lit "int32") (lit "1+") [] [] [] None true (RNone) [];
 FSpec (lit "Groups") (lit "[]DescribedGroup") (lit "0+") [] [] [] None false (RNone) [
  FSpec (lit "ErrorCode") (lit "int16") (lit "0+") [] [] [] None false (RNone) [];
  FSpec (lit "GroupId") (lit "string") (lit "0+") [] [] [] None false (RNone) [];
  FSpec (lit "GroupState") (lit "string") (lit "0+") [] [] [] None false (RNone) [];
  FSpec (lit "ProtocolType") (lit "string") (lit "0+") [] [] [] None false (RNone) [];
  FSpec (lit "ProtocolData") (lit "string") (lit "0+") [] [] [] None false (RNone) [];
  FSpec (lit "Members") (lit "[]DescribedGroupMember") (lit "0+") [] [] [] None false (RNone) [
   FSpec (lit "MemberId") (lit "string") (lit "0+") [] [] [] None false (RNone) [];
   FSpec (lit "GroupInstanceId") (lit "string") (lit "4+") [] (lit "4+") [] None true (RStr (lit "null")) [];
   FSpec (lit "ClientId") (lit "string") (lit "0+") [] [] [] None false (RNone) [];
   FSpec (lit "ClientHost") (lit "string") (lit "0+") [] [] [] None false (RNone) [];
   FSpec (lit "MemberMetadata") (lit "bytes") (lit "0+") [] [] [] None false (RNone) [];
   FSpec (lit "MemberAssignment") (lit "bytes") (lit "0+") [] [] [] None false (RNone) []];
  FSpec (lit "AuthorizedOperations") (lit "int32") (lit "3+") [] [] [] None false (RStr (lit "-2147483648")) []]] [].
(* protocol_spec/DescribeLogDirsRequest.json *)
Definition d_DescribeLogDirsRequest : mspec := MSpec (lit "0-4") (lit "2+") [
 FSpec (lit "Topics") (lit "[]DescribableLogDirTopic") (lit "0+") [] (lit "0+") [] None false (RNone) [
  FSpec (lit "Topic") (lit "string") (lit "0+") [] [] [] None false (RNone) [];
  FSpec (lit "Partitions") (lit "[]int32") (lit "0+") [] [] [] None false (RNone) []]] [].
(* protocol_spec/DescribeLogDirsResponse.json *)
Definition d_DescribeLogDirsResponse : mspec := MSpec (lit "0-4") (lit "2+") [
 FSpec (lit "ThrottleTimeMs") (lit "int32") (lit "0+") [] [] [] None false (RNone) [];
 FSpec (lit "ErrorCode") (lit "int16") (lit "3+") [] [] [] None true (RNone) [];
 FSpec (lit "Results") (lit "[]DescribeLogDirsResult") (lit "0+") [] [] [] None false (RNone) [
  FSpec (lit "ErrorCode") (lit "int16") (lit "0+") [] [] [] None false (RNone) [];
  FSpec (lit "LogDir") (lit "string") (lit "0+") [] [] [] None false (RNone) [];
  FSpec (lit "Topics") (lit "[]DescribeLogDirsTopic") (lit "0+") [] [] [] None false (RNone) [
   FSpec (lit "Name") (lit "string") (lit "0+") [] [] [] None false (RNone) [];
   FSpec (lit "Partitions") (lit "[]DescribeLogDirsPartition") (lit "0+") [] [] [] None false (RNone) [
    FSpec (lit "PartitionIndex") (lit "int32") (lit "0+") [] [] [] None false (RNone) [];
    FSpec (lit "PartitionSize") (lit "int64") (lit "0+") [] [] [] None false (RNone) [];
    FSpec (lit "OffsetLag") (lit "int64") (lit "0+") [] [] [] None false (RNone) [];
    FSpec (lit "IsFutureKey") (lit "bool") (lit "0+") [] [] [] None false (RNone) []]];
  FSpec (lit "TotalBytes") (lit "int64") (lit "4+") [] [] [] None true (RStr (lit "-1")) [];
  FSpec (lit "UsableBytes") (lit "int64") (lit "4+") [] [] [] None true (RStr (lit "-1")) []]] [].
(* protocol_spec/DescribeProducersRequest.json *)
Definition d_DescribeProducersRequest : mspec := MSpec (lit "0") (lit "0+") [
 FSpec (lit "Topics") (lit "[]TopicRequest") (lit "0+") [] [] [] None false (RNone) [
  FSpec (lit "Name") (lit "string") (lit "0+") [] [] [] None false (RNone) [];
  FSpec (lit "PartitionIndexes") (lit "[]int32") (lit "0+") [] [] [] None false (RNone) []]] [].
(* protocol_spec/DescribeProducersResponse.json *)
Definition d_DescribeProducersResponse : mspec := MSpec (lit "0") (lit "0+") [
 FSpec (lit "ThrottleTimeMs") (lit "int32") (lit "0+") [] [] [] None false (RNone) [];
 FSpec (lit "Topics") (lit "[]TopicResponse") (lit "0+") [] [] [] None false (RNone) [
  FSpec (lit "Name") (lit "string") (lit "0+") [] [] [] None false (RNone) [];
  FSpec (lit "Partitions") (lit "[]PartitionResponse") (lit "0+") [] [] [] None false (RNone) [
   FSpec (lit "PartitionIndex") (lit "int32") (lit "0+") [] [] [] None false (RNone) [];
   FSpec (lit "ErrorCode") (lit "int16") (lit "0+") [] [] [] None false (RNone) [];
   FSpec (lit "ErrorMessage") (lit "string") (lit "0+") [] (lit "0+") [] None false (RStr (lit "null")) [];
   FSpec (lit "ActiveProducers") (lit "[]ProducerState") (lit "0+") [] [] [] None false (RNone) [
    FSpec (lit "ProducerId") (lit "int64") (lit "0+") [] [] [] None false (RNone) [];
    FSpec (lit "ProducerEpoch") (lit "int32") (lit "0+") [] [] [] None false (RNone) [];
    FSpec (lit "LastSequence") (lit "int32") (lit "0+") [] [] [] None false (RStr (lit "-1")) [];
    FSpec (lit "LastTimestamp") (lit "int64") (lit "0+") [] [] [] None false (RStr (lit "-1")) [];
    FSpec (lit "CoordinatorEpoch") (lit "int32") (lit "0+") [] [] [] None false (RNone) [];
    FSpec (lit "CurrentTxnStartOffset") (lit "int64") (lit "0+") [] [] [] None false (RStr (lit "-1")) []]]]] [].
(* protocol_spec/DescribeQuorumRequest.json *)
Definition d_DescribeQuorumRequest : mspec := MSpec (lit "0-1") (lit "0+") [
 FSpec (lit "Topics") (lit "[]TopicData") (lit "0+") [] [] [] None false (RNone) [
  FSpec (lit "TopicName") (lit "string") (lit "0+") [] [] [] None false (RNone) [];
  FSpec (lit "Partitions") (lit "[]PartitionData") (lit "0+") [] [] [] None false (RNone) [
   FSpec (lit "PartitionIndex") (lit "int32") (lit "0+") [] [] [] None false (RNone) []]]] [].
(* protocol_spec/DescribeQuorumResponse.json *)
Definition d_DescribeQuorumResponse : mspec := MSpec (lit "0-1") (lit "0+") [
 FSpec (lit "ErrorCode") (lit "int16") (lit "0+") [] [] [] None false (RNone) [];
 FSpec (lit "Topics") (lit "[]TopicData") (lit "0+") [] [] [] None false (RNone) [
  FSpec (lit "TopicName") (lit "string") (lit "0+") [] [] [] None false (RNone) [];
  FSpec (lit "Partitions") (lit "[]PartitionData") (lit "0+") [] [] [] None false (RNone) [
   FSpec (lit "PartitionIndex") (lit "int32") (lit "0+") [] [] [] None false (RNone) [];
   FSpec (lit "ErrorCode") (lit "int16") (lit "0+") [] [] [] None false (RNone) [];
   FSpec (lit "LeaderId") (lit "int32") (lit "0+") [] [] [] None false (RNone) [];
   FSpec (lit "LeaderEpoch") (lit "int32") (lit "0+") [] [] [] None false (RNone) [];
   FSpec (lit "HighWatermark") (lit "int64") (lit "0+") [] [] [] None false (RNone) [];
   FSpec (lit "CurrentVoters") (lit "[]ReplicaState") (lit "0+") [] [] [] None false (RNone) [];
   FSpec (lit "Observers") (lit "[]ReplicaState") (lit "0+") [] [] [] None false (RNone) []]]] [((lit "ReplicaState"), [
 FSpec (lit "ReplicaId") (lit "int32") (lit "0+") [] [] [] None false (RNone) [];
 FSpec (lit "LogEndOffset") (lit "int64") (lit "0+") [] [] [] None false (RNone) [];
 FSpec (lit "LastFetchTimestamp") (lit "int64") (lit "1+") [] [] [] None true (RNum (-1)%Z) [];
 FSpec (lit "LastCaughtUpTimestamp") (lit "int64") (lit "1+") [] [] [] None true (RNum (-1)%Z) []])].
(* protocol_spec/DescribeTransactionsRequest.json *)
Definition d_DescribeTransactionsRequest : mspec := MSpec (lit "0") (lit "0+") [
 FSpec (lit "TransactionalIds") (lit "[]string") (lit "0+") [] [] [] None false (RNone) []] [].
(* protocol_spec/DescribeTransactionsResponse.json *)
Definition d_DescribeTransactionsResponse : mspec := MSpec (lit "0") (lit "0+") [
 FSpec (lit "ThrottleTimeMs") (lit "int32") (lit "0+") [] [] [] None false (RNone) [];
 FSpec (lit "TransactionStates") (lit "[]TransactionState") (lit "0+") [] [] [] None false (RNone) [
  FSpec (lit "ErrorCode") (lit "int16") (lit "0+") [] [] [] None false (RNone) [];
  FSpec (lit "TransactionalId") (lit "string") (lit "0+") [] [] [] None false (RNone) [];
  FSpec (lit "TransactionState") (lit "string") (lit "0+") [] [] [] None false (RNone) [];
  FSpec (lit "TransactionTimeoutMs") (lit "int32") (lit "0+") [] [] [] None false (RNone) [];
  FSpec (lit "TransactionStartTimeMs") (lit "int64") (lit "0+") [] [] [] None false (RNone) [];
  FSpec (lit "ProducerId") (lit "int64") (lit "0+") [] [] [] None false (RNone) [];
  FSpec (lit "ProducerEpoch") (lit "int16") (lit "0+") [] [] [] None false (RNone) [];
  FSpec (lit "Topics") (lit "[]TopicData") (lit "0+") [] [] [] None false (RNone) [
   FSpec (lit "Topic") (lit "string") (lit "0+") [] [] [] None false (RNone) [];
   FSpec (lit "Partitions") (lit "[]int32") (lit "0+") [] [] [] None false (RNone) []]]] [].
(* protocol_spec/DescribeUserScramCredentialsRequest.json *)
Definition d_DescribeUserScramCredentialsRequest : mspec := MSpec (lit "0") (lit "0+") [
 FSpec (lit "Users") (lit "[]UserName") (lit "0+") [] (lit "0+") [] None false (RNone) [
  FSpec (lit "Name") (lit "string") (lit "0+") [] [] [] None false (RNone) []]] [].
(* protocol_spec/DescribeUserScramCredentialsResponse.json *)
Definition d_DescribeUserScramCredentialsResponse : mspec := MSpec (lit "0") (lit "0+") [
 FSpec (lit "ThrottleTimeMs") (lit "int32") (lit "0+") [] [] [] None false (RNone) [];
 FSpec (lit "ErrorCode") (lit "int16") (lit "0+") [] [] [] None false (RNone) [];
 FSpec (lit "ErrorMessage") (lit "string") (lit "0+") [] (lit "0+") [] None false (RNone) [];
 FSpec (lit "Results") (lit "[]DescribeUserScramCredentialsResult") (lit "0+") [] [] [] None false (RNone) [
  FSpec (lit "User") (lit "string") (lit "0+") [] [] [] None false (RNone) [];
  FSpec (lit "ErrorCode") (lit "int16") (lit "0+") [] [] [] None false (RNone) [];
  FSpec (lit "ErrorMessage") (lit "string") (lit "0+") [] (lit "0+") [] None false (RNone) [];
  FSpec (lit "CredentialInfos") (lit "[]CredentialInfo") (lit "0+") [] [] [] None false (RNone) [
   FSpec (lit "Mechanism") (lit "int8") (lit "0+") [] [] [] None false (RNone) [];
   FSpec (lit "Iterations") (lit "int32") (lit "0+") [] [] [] None false (RNone) []]]] [].
(* protocol_spec/ElectLeadersRequest.json *)
Definition d_ElectLeadersRequest : mspec := MSpec (lit "0-2") (lit "2+") [
 FSpec (lit "ElectionType") (lit "int8") (lit "1+") [] [] [] None false (RNone) [];
 FSpec (lit "TopicPartitions") (lit "[]TopicPartitions") (lit "0+") [] (lit "0+") [] None false (RNone) [
  FSpec (lit "Topic") (lit "string") (lit "0+") [] [] [] None false (RNone) [];
  FSpec (lit "Partitions") (lit "[]int32") (lit "0+") [] [] [] None false (RNone) []];
 FSpec (lit "TimeoutMs") (lit "int32") (lit "0+") [] [] [] None false (RStr (lit "60000")) []] [].
(* protocol_spec/ElectLeadersResponse.json *)
Definition d_ElectLeadersResponse : mspec := MSpec (lit "0-2") (lit "2+") [
 FSpec (lit "ThrottleTimeMs") (lit "int32") (lit "0+") [] [] [] None false (RNone) [];
 FSpec (lit "ErrorCode") (lit "int16") (lit "1+") [] [] [] None false (RNone) [];
 FSpec (lit "ReplicaElectionResults") (lit "[]ReplicaElectionResult") (lit "0+") [] [] [] None false (RNone) [
  FSpec (lit "Topic") (lit "string") (lit "0+") [] [] [] None false (RNone) [];
  FSpec (lit "PartitionResult") (lit "[]PartitionResult") (lit "0+") [] [] [] None false (RNone) [
   FSpec (lit "PartitionId") (lit "int32") (lit "0+") [] [] [] None false (RNone) [];
   FSpec (lit "ErrorCode") (lit "int16") (lit "0+") [] [] [] None false (RNone) [];
   FSpec (lit "ErrorMessage") (lit "string") (lit "0+") [] (lit "0+") [] None false (RNone) []]]] [].
(* protocol_spec/EndQuorumEpochRequest.json *)
Definition d_EndQuorumEpochRequest : mspec := MSpec (lit "0") (lit "none") [
 FSpec (lit "ClusterId") (lit "string") (lit "0+") [] (lit "0+") [] None false (RStr (lit "null")) [];
 FSpec (lit "Topics") (lit "[]TopicData") (lit "0+") [] [] [] None false (RNone) [
  FSpec (lit "TopicName") (lit "string") (lit "0+") [] [] [] None false (RNone) [];
  FSpec (lit "Partitions") (lit "[]PartitionData") (lit "0+") [] [] [] None false (RNone) [
   FSpec (lit "PartitionIndex") (lit "int32") (lit "0+") [] [] [] None false (RNone) [];
   FSpec (lit "LeaderId") (lit "int32") (lit "0+") [] [] [] None false (RNone) [];
   FSpec (lit "LeaderEpoch") (lit "int32") (lit "0+") [] [] [] None false (RNone) [];
   FSpec (lit "PreferredSuccessors") (lit "[]int32") (lit "0+") [] [] [] None false (RNone) []]]] [].
(* protocol_spec/EndQuorumEpochResponse.json *)
Definition d_EndQuorumEpochResponse : mspec := MSpec (lit "0") (lit "none") [
 FSpec (lit "ErrorCode") (lit "int16") (lit "0+") [] [] [] None false (RNone) [];
 FSpec (lit "Topics") (lit "[]TopicData") (lit "0+") [] [] [] None false (RNone) [
  FSpec (lit "TopicName") (lit "string") (lit "0+") [] [] [] None false (RNone) [];
  FSpec (lit "Partitions") (lit "[]PartitionData") (lit "0+") [] [] [] None false (RNone) [
   FSpec (lit "PartitionIndex") (lit "int32") (lit "0+") [] [] [] None false (RNone) [];
   FSpec (lit "ErrorCode") (lit "int16") (lit "0+") [] [] [] None false (RNone) [];
   FSpec (lit "LeaderId") (lit "int32") (lit "0+") [] [] [] None false (RNone) [];
   FSpec (lit "LeaderEpoch") (lit "int32") (lit "0+") [] [] [] None false (RNone) []]]] [].
(* protocol_spec/EndTxnRequest.json *)
Definition d_EndTxnRequest : mspec := MSpec (lit "0-3") (lit "3+") [
 FSpec (lit "TransactionalId") (lit "string") (lit "0+") [] [] [] None false (RNone) [];
 FSpec (lit "ProducerId") (lit "int64") (lit "0+") [] [] [] None false (RNone) [];
 FSpec (lit "ProducerEpoch") (lit "int16") (lit "0+") [] [] [] None false (RNone) [];
 FSpec (lit "Committed") (lit "bool") (lit "0+") [] [] [] None false (RNone) []] [].
(* protocol_spec/EndTxnResponse.json *)
Definition d_EndTxnResponse : mspec := MSpec (lit "0-3") (lit "3+") [
 FSpec (lit "ThrottleTimeMs") (lit "int32") (lit "0+") [] [] [] None false (RNone) [];
 FSpec (lit "ErrorCode") (lit "int16") (lit "0+") [] [] [] None false (RNone) []] [].
(* protocol_spec/EnvelopeRequest.json *)
Definition d_EnvelopeRequest : mspec := MSpec (lit "0") (lit "0+") [
 FSpec (lit "RequestData") (lit "bytes") (lit "0+") [] [] [] None false (RNone) [];
 FSpec (lit "RequestPrincipal") (lit "bytes") (lit "0+") [] (lit "0+") [] None false (RNone) [];
 FSpec (lit "ClientHostAddress") (lit "bytes") (lit "0+") [] [] [] None false (RNone) []] [].
(* protocol_spec/EnvelopeResponse.json *)
Definition d_EnvelopeResponse : mspec := MSpec (lit "0") (lit "0+") [
 FSpec (lit "ResponseData") (lit "bytes") (lit "0+") [] (lit "0+") [] None false (RStr (lit "null")) [];
 FSpec (lit "ErrorCode") (lit "int16") (lit "0+") [] [] [] None false (RNone) []] [].
(* protocol_spec/ExpireDelegationTokenRequest.json *)
Definition d_ExpireDelegationTokenRequest : mspec := MSpec (lit "0-2") (lit "2+") [
 FSpec (lit "Hmac") (lit "bytes") (lit "0+") [] [] [] None false (RNone) [];
 FSpec (lit "ExpiryTimePeriodMs") (lit "int64") (lit "0+") [] [] [] None false (RNone) []] [].
(* protocol_spec/ExpireDelegationTokenResponse.json *)
Definition d_ExpireDelegationTokenResponse : mspec := MSpec (lit "0-2") (lit "2+") [
 FSpec (lit "ErrorCode") (lit "int16") (lit "0+") [] [] [] None false (RNone) [];
 FSpec (lit "ExpiryTimestampMs") (lit "int64") (lit "0+") [] [] [] None false (RNone) [];
 FSpec (lit "ThrottleTimeMs") (lit "int32") (lit "0+") [] [] [] None false (RNone) []] [].
(* protocol_spec/FetchRequest.json *)
Definition d_FetchRequest : mspec := MSpec (lit "0-13") (lit "12+") [
 FSpec (lit "ClusterId") (lit "string") (lit "12+") [] (lit "12+") (lit "12+") (Some (0)%Z) true (RStr (lit "null")) [];
 FSpec (lit "ReplicaId") (lit "int32") (lit "0+") [] [] [] None false (RNone) [];
 FSpec (lit "MaxWaitMs") (lit "int32") (lit "0+") [] [] [] None false (RNone) [];
 FSpec (lit "MinBytes") (lit "int32") (lit "0+") [] [] [] None false (RNone) [];
 FSpec (lit "MaxBytes") (lit "int32") (lit "3+") [] [] [] None true (RStr (lit "0x7fffffff")) [];
 FSpec (lit "IsolationLevel") (lit "int8") (lit "4+") [] [] [] None true (RStr (lit "0")) [];
 FSpec (lit "SessionId") (lit "int32") (lit "7+") [] [] [] None true (RStr (lit "0")) [];
 FSpec (lit "SessionEpoch") (lit "int32") (lit "7+") [] [] [] None true (RStr (lit "-1")) [];
 FSpec (lit "Topics") (lit "[]FetchTopic") (lit "0+") [] [] [] None false (RNone) [
  FSpec (lit "Topic") (lit "string") (lit "0-12") [] [] [] None true (RNone) [];
  FSpec (lit "TopicId") (lit "uuid") (lit "13+") [] [] [] None true (RNone) [];
  FSpec (lit "Partitions") (lit "[]FetchPartition") (lit "0+") [] [] [] None false (RNone) [
   FSpec (lit "Partition") (lit "int32") (lit "0+") [] [] [] None false (RNone) [];
   FSpec (lit "CurrentLeaderEpoch") (lit "int32") (lit "9+") [] [] [] None true (RStr (lit "-1")) [];
   FSpec (lit "FetchOffset") (lit "int64") (lit "0+") [] [] [] None false (RNone) [];
   FSpec (lit "LastFetchedEpoch") (lit "int32") (lit "12+") [] [] [] None false (RStr (lit "-1")) [];
   FSpec (lit "LogStartOffset") (lit "int64") (lit "5+") [] [] [] None true (RStr (lit "-1")) [];
   FSpec (lit "PartitionMaxBytes") (lit "int32") (lit "0+") [] [] [] None false (RNone) []]];
 FSpec (lit "ForgottenTopicsData") (lit "[]ForgottenTopic") (lit "7+") [] [] [] None false (RNone) [
  FSpec (lit "Topic") (lit "string") (lit "7-12") [] [] [] None true (RNone) [];
  FSpec (lit "TopicId") (lit "uuid") (lit "13+") [] [] [] None true (RNone) [];
  FSpec (lit "Partitions") (lit "[]int32") (lit "7+") [] [] [] None false (RNone) []];
 FSpec (lit "RackId") (lit "string") (lit "11+") [] [] [] None true (RStr []) []] [].
(* protocol_spec/FetchResponse.json *)
Definition d_FetchResponse : mspec := MSpec (lit "0-13") (lit "12+") [
 FSpec (lit "ThrottleTimeMs") (lit "int32") (lit "1+") [] [] [] None true (RNone) [];
 FSpec (lit "ErrorCode") (lit "int16") (lit "7+") [] [] [] None true (RNone) [];
 FSpec (lit "SessionId") (lit "int32") (lit "7+") [] [] [] None false (RStr (lit "0")) [];
 FSpec (lit "Responses") (lit "[]FetchableTopicResponse") (lit "0+") [] [] [] None false (RNone) [
  FSpec (lit "Topic") (lit "string") (lit "0-12") [] [] [] None true (RNone) [];
  FSpec (lit "TopicId") (lit "uuid") (lit "13+") [] [] [] None true (RNone) [];
  FSpec (lit "Partitions") (lit "[]PartitionData") (lit "0+") [] [] [] None false (RNone) [
   FSpec (lit "PartitionIndex") (lit "int32") (lit "0+") [] [] [] None false (RNone) [];
   FSpec (lit "ErrorCode") (lit "int16") (lit "0+") [] [] [] None false (RNone) [];
   FSpec (lit "HighWatermark") (lit "int64") (lit "0+") [] [] [] None false (RNone) [];
   FSpec (lit "LastStableOffset") (lit "int64") (lit "4+") [] [] [] None true (RStr (lit "-1")) [];
   FSpec (lit "LogStartOffset") (lit "int64") (lit "5+") [] [] [] None true (RStr (lit "-1")) [];
   FSpec (lit "DivergingEpoch") (lit "EpochEndOffset") (lit "12+") [] [] (lit "12+") (Some (0)%Z) false (RNone) [
    FSpec (lit "Epoch") (lit "int32") (lit "12+") [] [] [] None false (RStr (lit "-1")) [];
    FSpec (lit "EndOffset") (lit "int64") (lit "12+") [] [] [] None false (RStr (lit "-1")) []];
   FSpec (lit "CurrentLeader") (lit "LeaderIdAndEpoch") (lit "12+") [] [] (lit "12+") (Some (1)%Z) false (RNone) [
    FSpec (lit "LeaderId") (lit "int32") (lit "12+") [] [] [] None false (RStr (lit "-1")) [];
    FSpec (lit "LeaderEpoch") (lit "int32") (lit "12+") [] [] [] None false (RStr (lit "-1")) []];
   FSpec (lit "SnapshotId") (lit "SnapshotId") (lit "12+") [] [] (lit "12+") (Some (2)%Z) false (RNone) [
    FSpec (lit "EndOffset") (lit "int64") (lit "0+") [] [] [] None false (RStr (lit "-1")) [];
    FSpec (lit "Epoch") (lit "int32") (lit "0+") [] [] [] None false (RStr (lit "-1")) []];
   FSpec (lit "AbortedTransactions") (lit "[]AbortedTransaction") (lit "4+") [] (lit "4+") [] None true (RNone) [
    FSpec (lit "ProducerId") (lit "int64") (lit "4+") [] [] [] None false (RNone) [];
    FSpec (lit "FirstOffset") (lit "int64") (lit "4+") [] [] [] None false (RNone) []];
   FSpec (lit "PreferredReadReplica") (lit "int32") (lit "11+") [] [] [] None false (RStr (lit "-1")) [];
   FSpec (lit "Records") (lit "records") (lit "0+") [] (lit "0+") [] None false (RNone) []]]] [].
(* protocol_spec/FetchSnapshotRequest.json *)
Definition d_FetchSnapshotRequest : mspec := MSpec (lit "0") (lit "0+") [
 FSpec (lit "ClusterId") (lit "string") (lit "0+") [] (lit "0+") (lit "0+") (Some (0)%Z) false (RStr (lit "null")) [];
 FSpec (lit "ReplicaId") (lit "int32") (lit "0+") [] [] [] None false (RStr (lit "-1")) [];
 FSpec (lit "MaxBytes") (lit "int32") (lit "0+") [] [] [] None false (RStr (lit "0x7fffffff")) [];
 FSpec (lit "Topics") (lit "[]TopicSnapshot") (lit "0+") [] [] [] None false (RNone) [
  FSpec (lit "Name") (lit "string") (lit "0+") [] [] [] None false (RNone) [];
  FSpec (lit "Partitions") (lit "[]PartitionSnapshot") (lit "0+") [] [] [] None false (RNone) [
   FSpec (lit "Partition") (lit "int32") (lit "0+") [] [] [] None false (RNone) [];
   FSpec (lit "CurrentLeaderEpoch") (lit "int32") (lit "0+") [] [] [] None false (RNone) [];
   FSpec (lit "SnapshotId") (lit "SnapshotId") (lit "0+") [] [] [] None false (RNone) [
    FSpec (lit "EndOffset") (lit "int64") (lit "0+") [] [] [] None false (RNone) [];
    FSpec (lit "Epoch") (lit "int32") (lit "0+") [] [] [] None false (RNone) []];
   FSpec (lit "Position") (lit "int64") (lit "0+") [] [] [] None false (RNone) []]]] [].
(* protocol_spec/FetchSnapshotResponse.json *)
Definition d_FetchSnapshotResponse : mspec := MSpec (lit "0") (lit "0+") [
 FSpec (lit "ThrottleTimeMs") (lit "int32") (lit "0+") [] [] [] None true (RNone) [];
 FSpec (lit "ErrorCode") (lit "int16") (lit "0+") [] [] [] None false (RNone) [];
 FSpec (lit "Topics") (lit "[]TopicSnapshot") (lit "0+") [] [] [] None false (RNone) [
  FSpec (lit "Name") (lit "string") (lit "0+") [] [] [] None false (RNone) [];
  FSpec (lit "Partitions") (lit "[]PartitionSnapshot") (lit "0+") [] [] [] None false (RNone) [
   FSpec (lit "Index") (lit "int32") (lit "0+") [] [] [] None false (RNone) [];
   FSpec (lit "ErrorCode") (lit "int16") (lit "0+") [] [] [] None false (RNone) [];
   FSpec (lit "SnapshotId") (lit "SnapshotId") (lit "0+") [] [] [] None false (RNone) [
    FSpec (lit "EndOffset") (lit "int64") (lit "0+") [] [] [] None false (RNone) [];
    FSpec (lit "Epoch") (lit "int32") (lit "0+") [] [] [] None false (RNone) []];
   FSpec (lit "CurrentLeader") (lit "LeaderIdAndEpoch") (lit "0+") [] [] (lit "0+") (Some (0)%Z) false (RNone) [
    FSpec (lit "LeaderId") (lit "int32") (lit "0+") [] [] [] None false (RNone) [];
    FSpec (lit "LeaderEpoch") (lit "int32") (lit "0+") [] [] [] None false (RNone) []];
   FSpec (lit "Size") (lit "int64") (lit "0+") [] [] [] None false (RNone) [];
   FSpec (lit "Position") (lit "int64") (lit "0+") [] [] [] None false (RNone) [];
   FSpec (lit "UnalignedRecords") (lit "records") (lit "0+") [] [] [] None false (RNone) []]]] [].
(* protocol_spec/FindCoordinatorRequest.json *)
Definition d_FindCoordinatorRequest : mspec := MSpec (lit "0-4") (lit "3+") [
 FSpec (lit "Key") (lit "string") (lit "0-3") [] [] [] None false (RNone) [];
 FSpec (lit "KeyType") (lit "int8") (lit "1+") [] [] [] None false (RStr (lit "0")) [];
 FSpec (lit "CoordinatorKeys") (lit "[]string") (lit "4+") [] [] [] None false (RNone) []] [].
(* protocol_spec/FindCoordinatorResponse.json *)
Definition d_FindCoordinatorResponse : mspec := MSpec (lit "0-4") (lit "3+") [
 FSpec (lit "ThrottleTimeMs") (lit "int32") (lit "1+") [] [] [] None true (RNone) [];
 FSpec (lit "ErrorCode") (lit "int16") (lit "0-3") [] [] [] None false (RNone) [];
 FSpec (lit "ErrorMessage") (lit "string") (lit "1-3") [] (lit "1-3") [] None true (RNone) [];
 FSpec (lit "NodeId") (lit "int32") (lit "0-3") [] [] [] None false (RNone) [];
 FSpec (lit "Host") (lit "string") (lit "0-3") [] [] [] None false (RNone) [];
 FSpec (lit "Port") (lit "int32") (lit "0-3") [] [] [] None false (RNone) [];
 FSpec (lit "Coordinators") (lit "[]Coordinator") (lit "4+") [] [] [] None false (RNone) [
  FSpec (lit "Key") (lit "string") (lit "4+") [] [] [] None false (RNone) [];
  FSpec (lit "NodeId") (lit "int32") (lit "4+") [] [] [] None false (RNone) [];
  FSpec (lit "Host") (lit "string") (lit "4+") [] [] [] None false (RNone) [];
  FSpec (lit "Port") (lit "int32") (lit "4+") [] [] [] None false (RNone) [];
  FSpec (lit "ErrorCode") (lit "int16") (lit "4+") [] [] [] None false (RNone) [];
  FSpec (lit "ErrorMessage") (lit "string") (lit "4+") [] (lit "4+") [] None true (RNone) []]] [].
(* protocol_spec/HeartbeatRequest.json *)
Definition d_HeartbeatRequest : mspec := MSpec (lit "0-4") (lit "4+") [
 FSpec (lit "GroupId") (lit "string") (lit "0+") [] [] [] None false (RNone) [];
 FSpec (lit "GenerationId") (lit "int32") (lit "0+") [] [] [] None false (RNone) [];
 FSpec (lit "MemberId") (lit "string") (lit "0+") [] [] [] None false (RNone) [];
 FSpec (lit "GroupInstanceId") (lit "string") (lit "3+") [] (lit "3+") [] None false (RStr (lit "null")) []] [].
(* protocol_spec/HeartbeatResponse.json *)
Definition d_HeartbeatResponse : mspec := MSpec (lit "0-4") (lit "4+") [
 FSpec (lit "ThrottleTimeMs") (lit "int32") (lit "1+") [] [] [] None true (RNone) [];
 FSpec (lit "ErrorCode") (lit "int16") (lit "0+") [] [] [] None false (RNone) []] [].
(* protocol_spec/IncrementalAlterConfigsRequest.json *)
Definition d_IncrementalAlterConfigsRequest : mspec := MSpec (lit "0-1") (lit "1+") [
 FSpec (lit "Resources") (lit "[]AlterConfigsResource") (lit "0+") [] [] [] None false (RNone) [
  FSpec (lit "ResourceType") (lit "int8") (lit "0+") [] [] [] None false (RNone) [];
  FSpec (lit "ResourceName") (lit "string") (lit "0+") [] [] [] None false (RNone) [];
  FSpec (lit "Configs") (lit "[]AlterableConfig") (lit "0+") [] [] [] None false (RNone) [
   FSpec (lit "Name") (lit "string") (lit "0+") [] [] [] None false (RNone) [];
   FSpec (lit "ConfigOperation") (lit "int8") (lit "0+") [] [] [] None false (RNone) [];
   FSpec (lit "Value") (lit "string") (lit "0+") [] (lit "0+") [] None false (RNone) []]];
 FSpec (lit "ValidateOnly") (lit "bool") (lit "0+") [] [] [] None false (RNone) []] [].
(* protocol_spec/IncrementalAlterConfigsResponse.json *)
Definition d_IncrementalAlterConfigsResponse : mspec := MSpec (lit "0-1") (lit "1+") [
 FSpec (lit "ThrottleTimeMs") (lit "int32") (lit "0+") [] [] [] None false (RNone) [];
 FSpec (lit "Responses") (lit "[]AlterConfigsResourceResponse") (lit "0+") [] [] [] None false (RNone) [
  FSpec (lit "ErrorCode") (lit "int16") (lit "0+") [] [] [] None false (RNone) [];
  FSpec (lit "ErrorMessage") (lit "string") (lit "0+") [] (lit "0+") [] None false (RNone) [];
  FSpec (lit "ResourceType") (lit "int8") (lit "0+") [] [] [] None false (RNone) [];
  FSpec (lit "ResourceName") (lit "string") (lit "0+") [] [] [] None false (RNone) []]] [].
(* protocol_spec/InitProducerIdRequest.json *)
Definition d_InitProducerIdRequest : mspec := MSpec (lit "0-4") (lit "2+") [
 FSpec (lit "TransactionalId") (lit "string") (lit "0+") [] (lit "0+") [] None false (RNone) [];
 FSpec (lit "TransactionTimeoutMs") (lit "int32") (lit "0+") [] [] [] None false (RNone) [];
 FSpec (lit "ProducerId") (lit "int64") (lit "3+") [] [] [] None false (RStr (lit "-1")) [];
 FSpec (lit "ProducerEpoch") (lit "int16") (lit "3+") [] [] [] None false (RStr (lit "-1")) []] [].
(* protocol_spec/InitProducerIdResponse.json *)
Definition d_InitProducerIdResponse : mspec := MSpec (lit "0-4") (lit "2+") [
 FSpec (lit "ThrottleTimeMs") (lit "int32") (lit "0+") [] [] [] None true (RNone) [];
 FSpec (lit "ErrorCode") (lit "int16") (lit "0+") [] [] [] None false (RNone) [];
 FSpec (lit "ProducerId") (lit "int64") (lit "0+") [] [] [] None false (RNum (-1)%Z) [];
 FSpec (lit "ProducerEpoch") (lit "int16") (lit "0+") [] [] [] None false (RNone) []] [].
(* protocol_spec/JoinGroupRequest.json *)
Definition d_JoinGroupRequest : mspec := MSpec (lit "0-9") (lit "6+") [
 FSpec (lit "GroupId") (lit "string") (lit "0+") [] [] [] None false (RNone) [];
 FSpec (lit "SessionTimeoutMs") (lit "int32") (lit "0+") [] [] [] None false (RNone) [];
 FSpec (lit "RebalanceTimeoutMs") (lit "int32") (lit "1+") [] [] [] None true (RStr (lit "-1")) [];
 FSpec (lit "MemberId") (lit "string") (lit "0+") [] [] [] None false (RNone) [];
 FSpec (lit "GroupInstanceId") (lit "string") (lit "5+") [] (lit "5+") [] None false (RStr (lit "null")) [];
 FSpec (lit "ProtocolType") (lit "string") (lit "0+") [] [] [] None false (RNone) [];
 FSpec (lit "Protocols") (lit "[]JoinGroupRequestProtocol") (lit "0+") [] [] [] None false (RNone) [
  FSpec (lit "Name") (lit "string") (lit "0+") [] [] [] None false (RNone) [];
  FSpec (lit "Metadata") (lit "bytes") (lit "0+") [] [] [] None false (RNone) []];
 FSpec (lit "Reason") (lit "string") (lit "8+") [] (lit "8+") [] None true (RStr (lit "null")) []] [].
(* protocol_spec/JoinGroupResponse.json *)
Definition d_JoinGroupResponse : mspec := MSpec (lit "0-9") (lit "6+") [
 FSpec (lit "ThrottleTimeMs") (lit "int32") (lit "2+") [] [] [] None true (RNone) [];
 FSpec (lit "ErrorCode") (lit "int16") (lit "0+") [] [] [] None false (RNone) [];
 FSpec (lit "GenerationId") (lit "int32") (lit "0+") [] [] [] None false (RStr (lit "-1")) [];
 FSpec (lit "ProtocolType") (lit "string") (lit "7+") [] (lit "7+") [] None true (RStr (lit "null")) [];
 FSpec (lit "ProtocolName") (lit "string") (lit "0+") [] (lit "7+") [] None false (RNone) [];
 FSpec (lit "Leader") (lit "string") (lit "0+") [] [] [] None false (RNone) [];
 FSpec (lit "SkipAssignment") (lit "bool") (lit "9+") [] [] [] None false (RStr (lit "false")) [];
 FSpec (lit "MemberId") (lit "string") (lit "0+") [] [] [] None false (RNone) [];
 FSpec (lit "Members") (lit "[]JoinGroupResponseMember") (lit "0+") [] [] [] None false (RNone) [
  FSpec (lit "MemberId") (lit "string") (lit "0+") [] [] [] None false (RNone) [];
  FSpec (lit "GroupInstanceId") (lit "string") (lit "5+") [] (lit "5+") [] None true (RStr (lit "null")) [];
  FSpec (lit "Metadata") (lit "bytes") (lit "0+") [] [] [] None false (RNone) []]] [].
(* protocol_spec/LeaderAndIsrRequest.json *)
Definition d_LeaderAndIsrRequest : mspec := MSpec (lit "0-7") (lit "4+") [
 FSpec (lit "ControllerId") (lit "int32") (lit "0+") [] [] [] None false (RNone) [];
 FSpec (lit "isKRaftController") (lit "bool") (lit "7+") [] [] [] None false (RStr (lit "false")) [];
 FSpec (lit "ControllerEpoch") (lit "int32") (lit "0+") [] [] [] None false (RNone) [];
 FSpec (lit "BrokerEpoch") (lit "int64") (lit "2+") [] [] [] None true (RStr (lit "-1")) [];
 FSpec (lit "Type") (lit "int8") (lit "5+") [] [] [] None false (RNone) [];
 FSpec (lit "UngroupedPartitionStates") (lit "[]LeaderAndIsrPartitionState") (lit "0-1") [] [] [] None false (RNone) [];
 FSpec (lit "TopicStates") (lit "[]LeaderAndIsrTopicState") (lit "2+") [] [] [] None false (RNone) [
  FSpec (lit "TopicName") (lit "string") (lit "2+") [] [] [] None false (RNone) [];
  FSpec (lit "TopicId") (lit "uuid") (lit "5+") [] [] [] None true (RNone) [];
  FSpec (lit "PartitionStates") (lit "[]LeaderAndIsrPartitionState") (lit "2+") [] [] [] None false (RNone) []];
 FSpec (lit "LiveLeaders") (lit "[]LeaderAndIsrLiveLeader") (lit "0+") [] [] [] None false (RNone) [
  FSpec (lit "BrokerId") (lit "int32") (lit "0+") [] [] [] None false (RNone) [];
  FSpec (lit "HostName") (lit "string") (lit "0+") [] [] [] None false (RNone) [];
  FSpec (lit "Port") (lit "int32") (lit "0+") [] [] [] None false (RNone) []]] [((lit "LeaderAndIsrPartitionState"), [
 FSpec (lit "TopicName") (lit "string") (lit "0-1") [] [] [] None true (RNone) [];
 FSpec (lit "PartitionIndex") (lit "int32") (lit "0+") [] [] [] None false (RNone) [];
 FSpec (lit "ControllerEpoch") (lit "int32") (lit "0+") [] [] [] None false (RNone) [];
 FSpec (lit "Leader") (lit "int32") (lit "0+") [] [] [] None false (RNone) [];
 FSpec (lit "LeaderEpoch") (lit "int32") (lit "0+") [] [] [] None false (RNone) [];
 FSpec (lit "Isr") (lit "[]int32") (lit "0+") [] [] [] None false (RNone) [];
 FSpec (lit "PartitionEpoch") (lit "int32") (lit "0+") [] [] [] None false (RNone) [];
 FSpec (lit "Replicas") (lit "[]int32") (lit "0+") [] [] [] None false (RNone) [];
 FSpec (lit "AddingReplicas") (lit "[]int32") (lit "3+") [] [] [] None true (RNone) [];
 FSpec (lit "RemovingReplicas") (lit "[]int32") (lit "3+") [] [] [] None true (RNone) [];
 FSpec (lit "IsNew") (lit "bool") (lit "1+") [] [] [] None true (RStr (lit "false")) [];
 FSpec (lit "LeaderRecoveryState") (lit "int8") (lit "6+") [] [] [] None false (RStr (lit "0")) []])].
(* protocol_spec/LeaderAndIsrResponse.json *)
Definition d_LeaderAndIsrResponse : mspec := MSpec (lit "0-7") (lit "4+") [
 FSpec (lit "ErrorCode") (lit "int16") (lit "0+") [] [] [] None false (RNone) [];
 FSpec (lit "PartitionErrors") (lit "[]LeaderAndIsrPartitionError") (lit "0-4") [] [] [] None false (RNone) [];
 FSpec (lit "Topics") (lit "[]LeaderAndIsrTopicError") (lit "5+") [] [] [] None false (RNone) [
  FSpec (lit "TopicId") (lit "uuid") (lit "5+") [] [] [] None false (RNone) [];
  FSpec (lit "PartitionErrors") (lit "[]LeaderAndIsrPartitionError") (lit "5+") [] [] [] None false (RNone) []]] [((lit "LeaderAndIsrPartitionError"), [
 FSpec (lit "TopicName") (lit "string") (lit "0-4") [] [] [] None true (RNone) [];
 FSpec (lit "PartitionIndex") (lit "int32") (lit "0+") [] [] [] None false (RNone) [];
 FSpec (lit "ErrorCode") (lit "int16") (lit "0+") [] [] [] None false (RNone) []])].
(* protocol_spec/LeaveGroupRequest.json *)
Definition d_LeaveGroupRequest : mspec := MSpec (lit "0-5") (lit "4+") [
 FSpec (lit "GroupId") (lit "string") (lit "0+") [] [] [] None false (RNone) [];
 FSpec (lit "MemberId") (lit "string") (lit "0-2") [] [] [] None false (RNone) [];
 FSpec (lit "Members") (lit "[]MemberIdentity") (lit "3+") [] [] [] None false (RNone) [
  FSpec (lit "MemberId") (lit "string") (lit "3+") [] [] [] None false (RNone) [];
  FSpec (lit "GroupInstanceId") (lit "string") (lit "3+") [] (lit "3+") [] None false (RStr (lit "null")) [];
  FSpec (lit "Reason") (lit "string") (lit "5+") [] (lit "5+") [] None true (RStr (lit "null")) []]] [].
(* protocol_spec/LeaveGroupResponse.json *)
Definition d_LeaveGroupResponse : mspec := MSpec (lit "0-5") (lit "4+") [
 FSpec (lit "ThrottleTimeMs") (lit "int32") (lit "1+") [] [] [] None true (RNone) [];
 FSpec (lit "ErrorCode") (lit "int16") (lit "0+") [] [] [] None false (RNone) [];
 FSpec (lit "Members") (lit "[]MemberResponse") (lit "3+") [] [] [] None false (RNone) [
  FSpec (lit "MemberId") (lit "string") (lit "3+") [] [] [] None false (RNone) [];
  FSpec (lit "GroupInstanceId") (lit "string") (lit "3+") [] (lit "3+") [] None false (RNone) [];
  FSpec (lit "ErrorCode") (lit "int16") (lit "3+") [] [] [] None false (RNone) []]] [].
(* protocol_spec/ListGroupsRequest.json *)
Definition d_ListGroupsRequest : mspec := MSpec (lit "0-4") (lit "3+") [
 FSpec (lit "StatesFilter") (lit "[]string") (lit "4+") [] [] [] None false (RNone) []] [].
(* protocol_spec/ListGroupsResponse.json *)
Definition d_ListGroupsResponse : mspec := MSpec (lit "0-4") (lit "3+") [
 FSpec (lit "ThrottleTimeMs") (lit "int32") (lit "1+") [] [] [] None true (RNone) [];
 FSpec (lit "ErrorCode") (lit "int16") (lit "0+") [] [] [] None false (RNone) [];
 FSpec (lit "Groups") (lit "[]ListedGroup") (lit "0+") [] [] [] None false (RNone) [
  FSpec (lit "GroupId") (lit "string") (lit "0+") [] [] [] None false (RNone) [];
  FSpec (lit "ProtocolType") (lit "string") (lit "0+") [] [] [] None false (RNone) [];
  FSpec (lit "GroupState") (lit "string") (lit "4+") [] [] [] None true (RNone) []]] [].
(* protocol_spec/ListOffsetsRequest.json *)
Definition d_ListOffsetsRequest : mspec := MSpec (lit "0-7") (lit "6+") [
 FSpec (lit "ReplicaId") (lit "int32") (lit "0+") [] [] [] None false (RNone) [];
 FSpec (lit "IsolationLevel") (lit "int8") (lit "2+") [] [] [] None false (RNone) [];
 FSpec (lit "Topics") (lit "[]ListOffsetsTopic") (lit "0+") [] [] [] None false (RNone) [
  FSpec (lit "Name") (lit "string") (lit "0+") [] [] [] None false (RNone) [];
  FSpec (lit "Partitions") (lit "[]ListOffsetsPartition") (lit "0+") [] [] [] None false (RNone) [
   FSpec (lit "PartitionIndex") (lit "int32") (lit "0+") [] [] [] None false (RNone) [];
   FSpec (lit "CurrentLeaderEpoch") (lit "int32") (lit "4+") [] [] [] None true (RStr (lit "-1")) [];
   FSpec (lit "Timestamp") (lit "int64") (lit "0+") [] [] [] None false (RNone) [];
   FSpec (lit "MaxNumOffsets") (lit "int32") (lit "0") [] [] [] None false (RStr (lit "1")) []]]] [].
(* protocol_spec/ListOffsetsResponse.json *)
Definition d_ListOffsetsResponse : mspec := MSpec (lit "0-7") (lit "6+") [
 FSpec (lit "ThrottleTimeMs") (lit "int32") (lit "2+") [] [] [] None true (RNone) [];
 FSpec (lit "Topics") (lit "[]ListOffsetsTopicResponse") (lit "0+") [] [] [] None false (RNone) [
  FSpec (lit "Name") (lit "string") (lit "0+") [] [] [] None false (RNone) [];
  FSpec (lit "Partitions") (lit "[]ListOffsetsPartitionResponse") (lit "0+") [] [] [] None false (RNone) [
   FSpec (lit "PartitionIndex") (lit "int32") (lit "0+") [] [] [] None false (RNone) [];
   FSpec (lit "ErrorCode") (lit "int16") (lit "0+") [] [] [] None false (RNone) [];
   FSpec (lit "OldStyleOffsets") (lit "[]int64") (lit "0") [] [] [] None false (RNone) [];
   FSpec (lit "Timestamp") (lit "int64") (lit "1+") [] [] [] None false (RStr (lit "-1")) [];
   FSpec (lit "Offset") (lit "int64") (lit "1+") [] [] [] None false (RStr (lit "-1")) [];
   FSpec (lit "LeaderEpoch") (lit "int32") (lit "4+") [] [] [] None false (RStr (lit "-1")) []]]] [].
(* protocol_spec/ListPartitionReassignmentsRequest.json *)
Definition d_ListPartitionReassignmentsRequest : mspec := MSpec (lit "0") (lit "0+") [
 FSpec (lit "TimeoutMs") (lit "int32") (lit "0+") [] [] [] None false (RStr (lit "60000")) [];
 FSpec (lit "Topics") (lit "[]ListPartitionReassignmentsTopics") (lit "0+") [] (lit "0+") [] None false (RStr (lit "null")) [
  FSpec (lit "Name") (lit "string") (lit "0+") [] [] [] None false (RNone) [];
  FSpec (lit "PartitionIndexes") (lit "[]int32") (lit "0+") [] [] [] None false (RNone) []]] [].
(* protocol_spec/ListPartitionReassignmentsResponse.json *)
Definition d_ListPartitionReassignmentsResponse : mspec := MSpec (lit "0") (lit "0+") [
 FSpec (lit "ThrottleTimeMs") (lit "int32") (lit "0+") [] [] [] None false (RNone) [];
 FSpec (lit "ErrorCode") (lit "int16") (lit "0+") [] [] [] None false (RNone) [];
 FSpec (lit "ErrorMessage") (lit "string") (lit "0+") [] (lit "0+") [] None false (RNone) [];
 FSpec (lit "Topics") (lit "[]OngoingTopicReassignment") (lit "0+") [] [] [] None false (RNone) [
  FSpec (lit "Name") (lit "string") (lit "0+") [] [] [] None false (RNone) [];
  FSpec (lit "Partitions") (lit "[]OngoingPartitionReassignment") (lit "0+") [] [] [] None false (RNone) [
   FSpec (lit "PartitionIndex") (lit "int32") (lit "0+") [] [] [] None false (RNone) [];
   FSpec (lit "Replicas") (lit "[]int32") (lit "0+") [] [] [] None false (RNone) [];
   FSpec (lit "AddingReplicas") (lit "[]int32") (lit "0+") [] [] [] None false (RNone) [];
   FSpec (lit "RemovingReplicas") (lit "[]int32") (lit "0+") [] [] [] None false (RNone) []]]] [].
(* protocol_spec/ListTransactionsRequest.json *)
Definition d_ListTransactionsRequest : mspec := MSpec (lit "0") (lit "0+") [
 FSpec (lit "StateFilters") (lit "[]string") (lit "0+") [] [] [] None false (RNone) [];
 FSpec (lit "ProducerIdFilters") (lit "[]int64") (lit "0+") [] [] [] None false (RNone) []] [].
(* protocol_spec/ListTransactionsResponse.json *)
Definition d_ListTransactionsResponse : mspec := MSpec (lit "0") (lit "0+") [
 FSpec (lit "ThrottleTimeMs") (lit "int32") (lit "0+") [] [] [] None false (RNone) [];
 FSpec (lit "ErrorCode") (lit "int16") (lit "0+") [] [] [] None false (RNone) [];
 FSpec (lit "UnknownStateFilters") (lit "[]string") (lit "0+") [] [] [] None false (RNone) [];
 FSpec (lit "TransactionStates") (lit "[]TransactionState") (lit "0+") [] [] [] None false (RNone) [
  FSpec (lit "TransactionalId") (lit "string") (lit "0+") [] [] [] None false (RNone) [];
  FSpec (lit "ProducerId") (lit "int64") (lit "0+") [] [] [] None false (RNone) [];
  FSpec (lit "TransactionState") (lit "string") (lit "0+") [] [] [] None false (RNone) []]] [].
(* protocol_spec/MetadataRequest.json *)
Definition d_MetadataRequest : mspec := MSpec (lit "0-12") (lit "9+") [
 FSpec (lit "Topics") (lit "[]MetadataRequestTopic") (lit "0+") [] (lit "1+") [] None false (RNone) [
  FSpec (lit "TopicId") (lit "uuid") (lit "10+") [] [] [] None true (RNone) [];
  FSpec (lit "Name") (lit "string") (lit "0+") [] (lit "10+") [] None false (RNone) []];
 FSpec (lit "AllowAutoTopicCreation") (lit "bool") (lit "4+") [] [] [] None false (RStr (lit "true")) [];
 FSpec (lit "IncludeClusterAuthorizedOperations") (lit "bool") (lit "8-10") [] [] [] None false (RNone) [];
 FSpec (lit "IncludeTopicAuthorizedOperations") (lit "bool") (lit "8+") [] [] [] None false (RNone) []] [].
(* protocol_spec/MetadataResponse.json *)
Definition d_MetadataResponse : mspec := MSpec (lit "0-12") (lit "9+") [
 FSpec (lit "ThrottleTimeMs") (lit "int32") (lit "3+") [] [] [] None true (RNone) [];
 FSpec (lit "Brokers") (lit "[]MetadataResponseBroker") (lit "0+") [] [] [] None false (RNone) [
  FSpec (lit "NodeId") (lit "int32") (lit "0+") [] [] [] None false (RNone) [];
  FSpec (lit "Host") (lit "string") (lit "0+") [] [] [] None false (RNone) [];
  FSpec (lit "Port") (lit "int32") (lit "0+") [] [] [] None false (RNone) [];
  FSpec (lit "Rack") (lit "string") (lit "1+") [] (lit "1+") [] None true (RStr (lit "null")) []];
 FSpec (lit "ClusterId") (lit "string") (lit "2+") [] (lit "2+") [] None true (RStr (lit "null")) [];
 FSpec (lit "ControllerId") (lit "int32") (lit "1+") [] [] [] None true (RStr (lit "-1")) [];
 FSpec (lit "Topics") (lit "[]MetadataResponseTopic") (lit "0+") [] [] [] None false (RNone) [
  FSpec (lit "ErrorCode") (lit "int16") (lit "0+") [] [] [] None false (RNone) [];
  FSpec (lit "Name") (lit "string") (lit "0+") [] (lit "12+") [] None false (RNone) [];
  FSpec (lit "TopicId") (lit "uuid") (lit "10+") [] [] [] None true (RNone) [];
  FSpec (lit "IsInternal") (lit "bool") (lit "1+") [] [] [] None true (RStr (lit "false")) [];
  FSpec (lit "Partitions") (lit "[]MetadataResponsePartition") (lit "0+") [] [] [] None false (RNone) [
   FSpec (lit "ErrorCode") (lit "int16") (lit "0+") [] [] [] None false (RNone) [];
   FSpec (lit "PartitionIndex") (lit "int32") (lit "0+") [] [] [] None false (RNone) [];
   FSpec (lit "LeaderId") (lit "int32") (lit "0+") [] [] [] None false (RNone) [];
   FSpec (lit "LeaderEpoch") (lit "int32") (lit "7+") [] [] [] None true (RStr (lit "-1")) [];
   FSpec (lit "ReplicaNodes") (lit "[]int32") (lit "0+") [] [] [] None false (RNone) [];
   FSpec (lit "IsrNodes") (lit "[]int32") (lit "0+") [] [] [] None false (RNone) [];
   FSpec (lit "OfflineReplicas") (lit "[]int32") (lit "5+") [] [] [] None true (RNone) []];
  FSpec (lit "TopicAuthorizedOperations") (lit "int32") (lit "8+") [] [] [] None false (RStr (lit "-2147483648")) []];
 FSpec (lit "ClusterAuthorizedOperations") (lit "int32") (lit "8-10") [] [] [] None false (RStr (lit "-2147483648")) []] [].
(* protocol_spec/OffsetCommitRequest.json *)
Definition d_OffsetCommitRequest : mspec := MSpec (lit "0-8") (lit "8+") [
 FSpec (lit "GroupId") (lit "string") (lit "0+") [] [] [] None false (RNone) [];
 FSpec (lit "GenerationId") (lit "int32") (lit "1+") [] [] [] None true (RStr (lit "-1")) [];
 FSpec (lit "MemberId") (lit "string") (lit "1+") [] [] [] None true (RNone) [];
 FSpec (lit "GroupInstanceId") (lit "string") (lit "7+") [] (lit "7+") [] None false (RStr (lit "null")) [];
 FSpec (lit "RetentionTimeMs") (lit "int64") (lit "2-4") [] [] [] None true (RStr (lit "-1")) [];
 FSpec (lit "Topics") (lit "[]OffsetCommitRequestTopic") (lit "0+") [] [] [] None false (RNone) [
  FSpec (lit "Name") (lit "string") (lit "0+") [] [] [] None false (RNone) [];
  FSpec (lit "Partitions") (lit "[]OffsetCommitRequestPartition") (lit "0+") [] [] [] None false (RNone) [
   FSpec (lit "PartitionIndex") (lit "int32") (lit "0+") [] [] [] None false (RNone) [];
   FSpec (lit "CommittedOffset") (lit "int64") (lit "0+") [] [] [] None false (RNone) [];
   FSpec (lit "CommittedLeaderEpoch") (lit "int32") (lit "6+") [] [] [] None true (RStr (lit "-1")) [];
   FSpec (lit "CommitTimestamp") (lit "int64") (lit "1") [] [] [] None false (RStr (lit "-1")) [];
   FSpec (lit "CommittedMetadata") (lit "string") (lit "0+") [] (lit "0+") [] None false (RNone) []]]] [].
(* protocol_spec/OffsetCommitResponse.json *)
Definition d_OffsetCommitResponse : mspec := MSpec (lit "0-8") (lit "8+") [
 FSpec (lit "ThrottleTimeMs") (lit "int32") (lit "3+") [] [] [] None true (RNone) [];
 FSpec (lit "Topics") (lit "[]OffsetCommitResponseTopic") (lit "0+") [] [] [] None false (RNone) [
  FSpec (lit "Name") (lit "string") (lit "0+") [] [] [] None false (RNone) [];
  FSpec (lit "Partitions") (lit "[]OffsetCommitResponsePartition") (lit "0+") [] [] [] None false (RNone) [
   FSpec (lit "PartitionIndex") (lit "int32") (lit "0+") [] [] [] None false (RNone) [];
   FSpec (lit "ErrorCode") (lit "int16") (lit "0+") [] [] [] None false (RNone) []]]] [].
(* protocol_spec/OffsetDeleteRequest.json *)
Definition d_OffsetDeleteRequest : mspec := MSpec (lit "0") (lit "none") [
 FSpec (lit "GroupId") (lit "string") (lit "0+") [] [] [] None false (RNone) [];
 FSpec (lit "Topics") (lit "[]OffsetDeleteRequestTopic") (lit "0+") [] [] [] None false (RNone) [
  FSpec (lit "Name") (lit "string") (lit "0+") [] [] [] None false (RNone) [];
  FSpec (lit "Partitions") (lit "[]OffsetDeleteRequestPartition") (lit "0+") [] [] [] None false (RNone) [
   FSpec (lit "PartitionIndex") (lit "int32") (lit "0+") [] [] [] None false (RNone) []]]] [].
(* protocol_spec/OffsetDeleteResponse.json *)
Definition d_OffsetDeleteResponse : mspec := MSpec (lit "0") (lit "none") [
 FSpec (lit "ErrorCode") (lit "int16") (lit "0+") [] [] [] None false (RNone) [];
 FSpec (lit "ThrottleTimeMs") (lit "int32") (lit "0+") [] [] [] None true (RNone) [];
 FSpec (lit "Topics") (lit "[]OffsetDeleteResponseTopic") (lit "0+") [] [] [] None false (RNone) [
  FSpec (lit "Name") (lit "string") (lit "0+") [] [] [] None false (RNone) [];
  FSpec (lit "Partitions") (lit "[]OffsetDeleteResponsePartition") (lit "0+") [] [] [] None false (RNone) [
   FSpec (lit "PartitionIndex") (lit "int32") (lit "0+") [] [] [] None false (RNone) [];
   FSpec (lit "ErrorCode") (lit "int16") (lit "0+") [] [] [] None false (RNone) []]]] [].
(* protocol_spec/OffsetFetchRequest.json *)
Definition d_OffsetFetchRequest : mspec := MSpec (lit "0-8") (lit "6+") [
 FSpec (lit "GroupId") (lit "string") (lit "0-7") [] [] [] None false (RNone) [];
 FSpec (lit "Topics") (lit "[]OffsetFetchRequestTopic") (lit "0-7") [] (lit "2-7") [] None false (RNone) [
  FSpec (lit "Name") (lit "string") (lit "0-7") [] [] [] None false (RNone) [];
  FSpec (lit "PartitionIndexes") (lit "[]int32") (lit "0-7") [] [] [] None false (RNone) []];
 FSpec (lit "Groups") (lit "[]OffsetFetchRequestGroup") (lit "8+") [] [] [] None false (RNone) [
  FSpec (lit "groupId") (lit "string") (lit "8+") [] [] [] None false (RNone) [];
  FSpec (lit "Topics") (lit "[]OffsetFetchRequestTopics") (lit "8+") [] (lit "8+") [] None false (RNone) [
   FSpec (lit "Name") (lit "string") (lit "8+") [] [] [] None false (RNone) [];
   FSpec (lit "PartitionIndexes") (lit "[]int32") (lit "8+") [] [] [] None false (RNone) []]];
 FSpec (lit "RequireStable") (lit "bool") (lit "7+") [] [] [] None false (RStr (lit "false")) []] [].
(* protocol_spec/OffsetFetchResponse.json *)
Definition d_OffsetFetchResponse : mspec := MSpec (lit "0-8") (lit "6+") [
 FSpec (lit "ThrottleTimeMs") (lit "int32") (lit "3+") [] [] [] None true (RNone) [];
 FSpec (lit "Topics") (lit "[]OffsetFetchResponseTopic") (lit "0-7") [] [] [] None false (RNone) [
  FSpec (lit "Name") (lit "string") (lit "0-7") [] [] [] None false (RNone) [];
  FSpec (lit "Partitions") (lit "[]OffsetFetchResponsePartition") (lit "0-7") [] [] [] None false (RNone) [
   FSpec (lit "PartitionIndex") (lit "int32") (lit "0-7") [] [] [] None false (RNone) [];
   FSpec (lit "CommittedOffset") (lit "int64") (lit "0-7") [] [] [] None false (RNone) [];
   FSpec (lit "CommittedLeaderEpoch") (lit "int32") (lit "5-7") [] [] [] None true (RStr (lit "-1")) [];
   FSpec (lit "Metadata") (lit "string") (lit "0-7") [] (lit "0-7") [] None false (RNone) [];
   FSpec (lit "ErrorCode") (lit "int16") (lit "0-7") [] [] [] None false (RNone) []]];
 FSpec (lit "ErrorCode") (lit "int16") (lit "2-7") [] [] [] None true (RStr (lit "0")) [];
 FSpec (lit "Groups") (lit "[]OffsetFetchResponseGroup") (lit "8+") [] [] [] None false (RNone) [
  FSpec (lit "groupId") (lit "string") (lit "8+") [] [] [] None false (RNone) [];
  FSpec (lit "Topics") (lit "[]OffsetFetchResponseTopics") (lit "8+") [] [] [] None false (RNone) [
   FSpec (lit "Name") (lit "string") (lit "8+") [] [] [] None false (RNone) [];
   FSpec (lit "Partitions") (lit "[]OffsetFetchResponsePartitions") (lit "8+") [] [] [] None false (RNone) [
    FSpec (lit "PartitionIndex") (lit "int32") (lit "8+") [] [] [] None false (RNone) [];
    FSpec (lit "CommittedOffset") (lit "int64") (lit "8+") [] [] [] None false (RNone) [];
    FSpec (lit "CommittedLeaderEpoch") (lit "int32") (lit "8+") [] [] [] None true (RStr (lit "-1")) [];
    FSpec (lit "Metadata") (lit "string") (lit "8+") [] (lit "8+") [] None false (RNone) [];
    FSpec (lit "ErrorCode") (lit "int16") (lit "8+") [] [] [] None false (RNone) []]];
  FSpec (lit "ErrorCode") (lit "int16") (lit "8+") [] [] [] None false (RStr (lit "0")) []]] [].
(* protocol_spec/OffsetForLeaderEpochRequest.json *)
Definition d_OffsetForLeaderEpochRequest : mspec := MSpec (lit "0-4") (lit "4+") [
 FSpec (lit "ReplicaId") (lit "int32") (lit "3+") [] [] [] None true (RNum (-2)%Z) [];
 FSpec (lit "Topics") (lit "[]OffsetForLeaderTopic") (lit "0+") [] [] [] None false (RNone) [
  FSpec (lit "Topic") (lit "string") (lit "0+") [] [] [] None false (RNone) [];
  FSpec (lit "Partitions") (lit "[]OffsetForLeaderPartition") (lit "0+") [] [] [] None false (RNone) [
   FSpec (lit "Partition") (lit "int32") (lit "0+") [] [] [] None false (RNone) [];
   FSpec (lit "CurrentLeaderEpoch") (lit "int32") (lit "2+") [] [] [] None true (RStr (lit "-1")) [];
   FSpec (lit "LeaderEpoch") (lit "int32") (lit "0+") [] [] [] None false (RNone) []]]] [].
(* protocol_spec/OffsetForLeaderEpochResponse.json *)
Definition d_OffsetForLeaderEpochResponse : mspec := MSpec (lit "0-4") (lit "4+") [
 FSpec (lit "ThrottleTimeMs") (lit "int32") (lit "2+") [] [] [] None true (RNone) [];
 FSpec (lit "Topics") (lit "[]OffsetForLeaderTopicResult") (lit "0+") [] [] [] None false (RNone) [
  FSpec (lit "Topic") (lit "string") (lit "0+") [] [] [] None false (RNone) [];
  FSpec (lit "Partitions") (lit "[]EpochEndOffset") (lit "0+") [] [] [] None false (RNone) [
   FSpec (lit "ErrorCode") (lit "int16") (lit "0+") [] [] [] None false (RNone) [];
   FSpec (lit "Partition") (lit "int32") (lit "0+") [] [] [] None false (RNone) [];
   FSpec (lit "LeaderEpoch") (lit "int32") (lit "1+") [] [] [] None true (RStr (lit "-1")) [];
   FSpec (lit "EndOffset") (lit "int64") (lit "0+") [] [] [] None false (RStr (lit "-1")) []]]] [].
(* protocol_spec/ProduceRequest.json *)
Definition d_ProduceRequest : mspec := MSpec (lit "0-9") (lit "9+") [
 FSpec (lit "TransactionalId") (lit "string") (lit "3+") [] (lit "3+") [] None false (RStr (lit "null")) [];
 FSpec (lit "Acks") (lit "int16") (lit "0+") [] [] [] None false (RNone) [];
 FSpec (lit "TimeoutMs") (lit "int32") (lit "0+") [] [] [] None false (RNone) [];
 FSpec (lit "TopicData") (lit "[]TopicProduceData") (lit "0+") [] [] [] None false (RNone) [
  FSpec (lit "Name") (lit "string") (lit "0+") [] [] [] None false (RNone) [];
  FSpec (lit "PartitionData") (lit "[]PartitionProduceData") (lit "0+") [] [] [] None false (RNone) [
   FSpec (lit "Index") (lit "int32") (lit "0+") [] [] [] None false (RNone) [];
   FSpec (lit "Records") (lit "records") (lit "0+") [] (lit "0+") [] None false (RNone) []]]] [].
(* protocol_spec/ProduceResponse.json *)
Definition d_ProduceResponse : mspec := MSpec (lit "0-9") (lit "9+") [
 FSpec (lit "Responses") (lit "[]TopicProduceResponse") (lit "0+") [] [] [] None false (RNone) [
  FSpec (lit "Name") (lit "string") (lit "0+") [] [] [] None false (RNone) [];
  FSpec (lit "PartitionResponses") (lit "[]PartitionProduceResponse") (lit "0+") [] [] [] None false (RNone) [
   FSpec (lit "Index") (lit "int32") (lit "0+") [] [] [] None false (RNone) [];
   FSpec (lit "ErrorCode") (lit "int16") (lit "0+") [] [] [] None false (RNone) [];
   FSpec (lit "BaseOffset") (lit "int64") (lit "0+") [] [] [] None false (RNone) [];
   FSpec (lit "LogAppendTimeMs") (lit "int64") (lit "2+") [] [] [] None true (RStr (lit "-1")) [];
   FSpec (lit "LogStartOffset") (lit "int64") (lit "5+") [] [] [] None true (RStr (lit "-1")) [];
   FSpec (lit "RecordErrors") (lit "[]BatchIndexAndErrorMessage") (lit "8+") [] [] [] None true (RNone) [
    FSpec (lit "BatchIndex") (lit "int32") (lit "8+") [] [] [] None false (RNone) [];
    FSpec (lit "BatchIndexErrorMessage") (lit "string") (lit "8+") [] (lit "8+") [] None false (RStr (lit "null")) []];
   FSpec (lit "ErrorMessage") (lit "string") (lit "8+") [] (lit "8+") [] None true (RStr (lit "null")) []]];
 FSpec (lit "ThrottleTimeMs") (lit "int32") (lit "1+") [] [] [] None true (RStr (lit "0")) []] [].
(* protocol_spec/RenewDelegationTokenRequest.json *)
Definition d_RenewDelegationTokenRequest : mspec := MSpec (lit "0-2") (lit "2+") [
 FSpec (lit "Hmac") (lit "bytes") (lit "0+") [] [] [] None false (RNone) [];
 FSpec (lit "RenewPeriodMs") (lit "int64") (lit "0+") [] [] [] None false (RNone) []] [].
(* protocol_spec/RenewDelegationTokenResponse.json *)
Definition d_RenewDelegationTokenResponse : mspec := MSpec (lit "0-2") (lit "2+") [
 FSpec (lit "ErrorCode") (lit "int16") (lit "0+") [] [] [] None false (RNone) [];
 FSpec (lit "ExpiryTimestampMs") (lit "int64") (lit "0+") [] [] [] None false (RNone) [];
 FSpec (lit "ThrottleTimeMs") (lit "int32") (lit "0+") [] [] [] None false (RNone) []] [].
(* protocol_spec/RequestHeader.json *)
Definition d_RequestHeader : mspec := MSpec (lit "0-2") (lit "2+") [
 FSpec (lit "RequestApiKey") (lit "int16") (lit "0+") [] [] [] None false (RNone) [];
 FSpec (lit "RequestApiVersion") (lit "int16") (lit "0+") [] [] [] None false (RNone) [];
 FSpec (lit "CorrelationId") (lit "int32") (lit "0+") [] [] [] None false (RNone) [];
 FSpec (lit "ClientId") (lit "string") (lit "1+") (lit "none") (lit "1+") [] None true (RNone) []] [].
(* protocol_spec/ResponseHeader.json *)
Definition d_ResponseHeader : mspec := MSpec (lit "0-1") (lit "1+") [
 FSpec (lit "CorrelationId") (lit "int32") (lit "0+") [] [] [] None false (RNone) []] [].
(* protocol_spec/SaslAuthenticateRequest.json *)
Definition d_SaslAuthenticateRequest : mspec := MSpec (lit "0-2") (lit "2+") [
 FSpec (lit "AuthBytes") (lit "bytes") (lit "0+") [] [] [] None false (RNone) []] [].
(* protocol_spec/SaslAuthenticateResponse.json *)
Definition d_SaslAuthenticateResponse : mspec := MSpec (lit "0-2") (lit "2+") [
 FSpec (lit "ErrorCode") (lit "int16") (lit "0+") [] [] [] None false (RNone) [];
 FSpec (lit "ErrorMessage") (lit "string") (lit "0+") [] (lit "0+") [] None false (RNone) [];
 FSpec (lit "AuthBytes") (lit "bytes") (lit "0+") [] [] [] None false (RNone) [];
 FSpec (lit "SessionLifetimeMs") (lit "int64") (lit "1+") [] [] [] None true (RStr (lit "0")) []] [].
(* protocol_spec/SaslHandshakeRequest.json *)
Definition d_SaslHandshakeRequest : mspec := MSpec (lit "0-1") (lit "none") [
 FSpec (lit "Mechanism") (lit "string") (lit "0+") [] [] [] None false (RNone) []] [].
(* protocol_spec/SaslHandshakeResponse.json *)
Definition d_SaslHandshakeResponse : mspec := MSpec (lit "0-1") (lit "none") [
 FSpec (lit "ErrorCode") (lit "int16") (lit "0+") [] [] [] None false (RNone) [];
 FSpec (lit "Mechanisms") (lit "[]string") (lit "0+") [] [] [] None false (RNone) []] [].
(* protocol_spec/StopReplicaRequest.json *)
Definition d_StopReplicaRequest : mspec := MSpec (lit "0-4") (lit "2+") [
 FSpec (lit "ControllerId") (lit "int32") (lit "0+") [] [] [] None false (RNone) [];
 FSpec (lit "isKRaftController") (lit "bool") (lit "4+") [] [] [] None false (RStr (lit "false")) [];
 FSpec (lit "ControllerEpoch") (lit "int32") (lit "0+") [] [] [] None false (RNone) [];
 FSpec (lit "BrokerEpoch") (lit "int64") (lit "1+") [] [] [] None true (RStr (lit "-1")) [];
 FSpec (lit "DeletePartitions") (lit "bool") (lit "0-2") [] [] [] None false (RNone) [];
 FSpec (lit "UngroupedPartitions") (lit "[]StopReplicaPartitionV0") (lit "0") [] [] [] None false (RNone) [
  FSpec (lit "TopicName") (lit "string") (lit "0") [] [] [] None false (RNone) [];
  FSpec (lit "PartitionIndex") (lit "int32") (lit "0") [] [] [] None false (RNone) []];
 FSpec (lit "Topics") (lit "[]StopReplicaTopicV1") (lit "1-2") [] [] [] None false (RNone) [
  FSpec (lit "Name") (lit "string") (lit "1-2") [] [] [] None false (RNone) [];
  FSpec (lit "PartitionIndexes") (lit "[]int32") (lit "1-2") [] [] [] None false (RNone) []];
 FSpec (lit "TopicStates") (lit "[]StopReplicaTopicState") (lit "3+") [] [] [] None false (RNone) [
  FSpec (lit "TopicName") (lit "string") (lit "3+") [] [] [] None false (RNone) [];
  FSpec (lit "PartitionStates") (lit "[]StopReplicaPartitionState") (lit "3+") [] [] [] None false (RNone) [
   FSpec (lit "PartitionIndex") (lit "int32") (lit "3+") [] [] [] None false (RNone) [];
   FSpec (lit "LeaderEpoch") (lit "int32") (lit "3+") [] [] [] None false (RStr (lit "-1")) [];
   FSpec (lit "DeletePartition") (lit "bool") (lit "3+") [] [] [] None false (RNone) []]]] [].
(* protocol_spec/StopReplicaResponse.json *)
Definition d_StopReplicaResponse : mspec := MSpec (lit "0-4") (lit "2+") [
 FSpec (lit "ErrorCode") (lit "int16") (lit "0+") [] [] [] None false (RNone) [];
 FSpec (lit "PartitionErrors") (lit "[]StopReplicaPartitionError") (lit "0+") [] [] [] None false (RNone) [
  FSpec (lit "TopicName") (lit "string") (lit "0+") [] [] [] None false (RNone) [];
  FSpec (lit "PartitionIndex") (lit "int32") (lit "0+") [] [] [] None false (RNone) [];
  FSpec (lit "ErrorCode") (lit "int16") (lit "0+") [] [] [] None false (RNone) []]] [].
(* protocol_spec/SyncGroupRequest.json *)
Definition d_SyncGroupRequest : mspec := MSpec (lit "0-5") (lit "4+") [
 FSpec (lit "GroupId") (lit "string") (lit "0+") [] [] [] None false (RNone) [];
 FSpec (lit "GenerationId") (lit "int32") (lit "0+") [] [] [] None false (RNone) [];
 FSpec (lit "MemberId") (lit "string") (lit "0+") [] [] [] None false (RNone) [];
 FSpec (lit "GroupInstanceId") (lit "string") (lit "3+") [] (lit "3+") [] None false (RStr (lit "null")) [];
 FSpec (lit "ProtocolType") (lit "string") (lit "5+") [] (lit "5+") [] None true (RStr (lit "null")) [];
 FSpec (lit "ProtocolName") (lit "string") (lit "5+") [] (lit "5+") [] None true (RStr (lit "null")) [];
 FSpec (lit "Assignments") (lit "[]SyncGroupRequestAssignment") (lit "0+") [] [] [] None false (RNone) [
  FSpec (lit "MemberId") (lit "string") (lit "0+") [] [] [] None false (RNone) [];
  FSpec (lit "Assignment") (lit "bytes") (lit "0+") [] [] [] None false (RNone) []]] [].
(* protocol_spec/SyncGroupResponse.json *)
Definition d_SyncGroupResponse : mspec := MSpec (lit "0-5") (lit "4+") [
 FSpec (lit "ThrottleTimeMs") (lit "int32") (lit "1+") [] [] [] None true (RNone) [];
 FSpec (lit "ErrorCode") (lit "int16") (lit "0+") [] [] [] None false (RNone) [];
 FSpec (lit "ProtocolType") (lit "string") (lit "5+") [] (lit "5+") [] None true (RStr (lit "null")) [];
 FSpec (lit "ProtocolName") (lit "string") (lit "5+") [] (lit "5+") [] None true (RStr (lit "null")) [];
 FSpec (lit "Assignment") (lit "bytes") (lit "0+") [] [] [] None false (RNone) []] [].
(* protocol_spec/TxnOffsetCommitRequest.json *)
Definition d_TxnOffsetCommitRequest : mspec := MSpec (lit "0-3") (lit "3+") [
 FSpec (lit "TransactionalId") (lit "string") (lit "0+") [] [] [] None false (RNone) [];
 FSpec (lit "GroupId") (lit "string") (lit "0+") [] [] [] None false (RNone) [];
 FSpec (lit "ProducerId") (lit "int64") (lit "0+") [] [] [] None false (RNone) [];
 FSpec (lit "ProducerEpoch") (lit "int16") (lit "0+") [] [] [] None false (RNone) [];
 FSpec (lit "GenerationId") (lit "int32") (lit "3+") [] [] [] None false (RStr (lit "-1")) [];
 FSpec (lit "MemberId") (lit "string") (lit "3+") [] [] [] None false (RStr []) [];
 FSpec (lit "GroupInstanceId") (lit "string") (lit "3+") [] (lit "3+") [] None false (RStr (lit "null")) [];
 FSpec (lit "Topics") (lit "[]TxnOffsetCommitRequestTopic") (lit "0+") [] [] [] None false (RNone) [
  FSpec (lit "Name") (lit "string") (lit "0+") [] [] [] None false (RNone) [];
  FSpec (lit "Partitions") (lit "[]TxnOffsetCommitRequestPartition") (lit "0+") [] [] [] None false (RNone) [
   FSpec (lit "PartitionIndex") (lit "int32") (lit "0+") [] [] [] None false (RNone) [];
   FSpec (lit "CommittedOffset") (lit "int64") (lit "0+") [] [] [] None false (RNone) [];
   FSpec (lit "CommittedLeaderEpoch") (lit "int32") (lit "2+") [] [] [] None true (RStr (lit "-1")) [];
   FSpec (lit "CommittedMetadata") (lit "string") (lit "0+") [] (lit "0+") [] None false (RNone) []]]] [].
(* protocol_spec/TxnOffsetCommitResponse.json *)
Definition d_TxnOffsetCommitResponse : mspec := MSpec (lit "0-3") (lit "3+") [
 FSpec (lit "ThrottleTimeMs") (lit "int32") (lit "0+") [] [] [] None false (RNone) [];
 FSpec (lit "Topics") (lit "[]TxnOffsetCommitResponseTopic") (lit "0+") [] [] [] None false (RNone) [
  FSpec (lit "Name") (lit "string") (lit "0+") [] [] [] None false (RNone) [];
  FSpec (lit "Partitions") (lit "[]TxnOffsetCommitResponsePartition") (lit "0+") [] [] [] None false (RNone) [
   FSpec (lit "PartitionIndex") (lit "int32") (lit "0+") [] [] [] None false (RNone) [];
   FSpec (lit "ErrorCode") (lit "int16") (lit "0+") [] [] [] None false (RNone) []]]] [].
(* protocol_spec/UnregisterBrokerRequest.json *)
Definition d_UnregisterBrokerRequest : mspec := MSpec (lit "0") (lit "0+") [
 FSpec (lit "BrokerId") (lit "int32") (lit "0+") [] [] [] None false (RNone) []] [].
(* protocol_spec/UnregisterBrokerResponse.json *)
Definition d_UnregisterBrokerResponse : mspec := MSpec (lit "0") (lit "0+") [
 FSpec (lit "ThrottleTimeMs") (lit "int32") (lit "0+") [] [] [] None false (RNone) [];
 FSpec (lit "ErrorCode") (lit "int16") (lit "0+") [] [] [] None false (RNone) [];
 FSpec (lit "ErrorMessage") (lit "string") (lit "0+") [] (lit "0+") [] None false (RNone) []] [].
(* protocol_spec/UpdateFeaturesRequest.json *)
Definition d_UpdateFeaturesRequest : mspec := MSpec (lit "0-1") (lit "0+") [
 FSpec (lit "timeoutMs") (lit "int32") (lit "0+") [] [] [] None false (RStr (lit "60000")) [];
 FSpec (lit "FeatureUpdates") (lit "[]FeatureUpdateKey") (lit "0+") [] [] [] None false (RNone) [
  FSpec (lit "Feature") (lit "string") (lit "0+") [] [] [] None false (RNone) [];
  FSpec (lit "MaxVersionLevel") (lit "int16") (lit "0+") [] [] [] None false (RNone) [];
  FSpec (lit "AllowDowngrade") (lit "bool") (lit "0") [] [] [] None false (RNone) [];
  FSpec (lit "UpgradeType") (lit "int8") (lit "1+") [] [] [] None false (RNum (1)%Z) []];
 FSpec (lit "ValidateOnly") (lit "bool") (lit "1+") [] [] [] None false (RBool false) []] [].
(* protocol_spec/UpdateFeaturesResponse.json *)
Definition d_UpdateFeaturesResponse : mspec := MSpec (lit "0-1") (lit "0+") [
 FSpec (lit "ThrottleTimeMs") (lit "int32") (lit "0+") [] [] [] None false (RNone) [];
 FSpec (lit "ErrorCode") (lit "int16") (lit "0+") [] [] [] None false (RNone) [];
 FSpec (lit "ErrorMessage") (lit "string") (lit "0+") [] (lit "0+") [] None false (RNone) [];
 FSpec (lit "Results") (lit "[]UpdatableFeatureResult") (lit "0+") [] [] [] None false (RNone) [
  FSpec (lit "Feature") (lit "string") (lit "0+") [] [] [] None false (RNone) [];
  FSpec (lit "ErrorCode") (lit "int16") (lit "0+") [] [] [] None false (RNone) [];
  FSpec (lit "ErrorMessage") (lit "string") (lit "0+") [] (lit "0+") [] None false (RNone) []]] [].
(* protocol_spec/UpdateMetadataRequest.json *)
Definition d_UpdateMetadataRequest : mspec := MSpec (lit "0-8") (lit "6+") [
 FSpec (lit "ControllerId") (lit "int32") (lit "0+") [] [] [] None false (RNone) [];
 FSpec (lit "isKRaftController") (lit "bool") (lit "8+") [] [] [] None false (RStr (lit "false")) [];
 FSpec (lit "ControllerEpoch") (lit "int32") (lit "0+") [] [] [] None false (RNone) [];
 FSpec (lit "BrokerEpoch") (lit "int64") (lit "5+") [] [] [] None true (RStr (lit "-1")) [];
 FSpec (lit "UngroupedPartitionStates") (lit "[]UpdateMetadataPartitionState") (lit "0-4") [] [] [] None false (RNone) [];
 FSpec (lit "TopicStates") (lit "[]UpdateMetadataTopicState") (lit "5+") [] [] [] None false (RNone) [
  FSpec (lit "TopicName") (lit "string") (lit "5+") [] [] [] None false (RNone) [];
  FSpec (lit "TopicId") (lit "uuid") (lit "7+") [] [] [] None true (RNone) [];
  FSpec (lit "PartitionStates") (lit "[]UpdateMetadataPartitionState") (lit "5+") [] [] [] None false (RNone) []];
 FSpec (lit "LiveBrokers") (lit "[]UpdateMetadataBroker") (lit "0+") [] [] [] None false (RNone) [
  FSpec (lit "Id") (lit "int32") (lit "0+") [] [] [] None false (RNone) [];
  FSpec (lit "V0Host") (lit "string") (lit "0") [] [] [] None true (RNone) [];
  FSpec (lit "V0Port") (lit "int32") (lit "0") [] [] [] None true (RNone) [];
  FSpec (lit "Endpoints") (lit "[]UpdateMetadataEndpoint") (lit "1+") [] [] [] None true (RNone) [
   FSpec (lit "Port") (lit "int32") (lit "1+") [] [] [] None false (RNone) [];
   FSpec (lit "Host") (lit "string") (lit "1+") [] [] [] None false (RNone) [];
   FSpec (lit "Listener") (lit "string") (lit "3+") [] [] [] None true (RNone) [];
   FSpec (lit "SecurityProtocol") (lit "int16") (lit "1+") [] [] [] None false (RNone) []];
  FSpec (lit "Rack") (lit "string") (lit "2+") [] (lit "0+") [] None true (RNone) []]] [((lit "UpdateMetadataPartitionState"), [
 FSpec (lit "TopicName") (lit "string") (lit "0-4") [] [] [] None true (RNone) [];
 FSpec (lit "PartitionIndex") (lit "int32") (lit "0+") [] [] [] None false (RNone) [];
 FSpec (lit "ControllerEpoch") (lit "int32") (lit "0+") [] [] [] None false (RNone) [];
 FSpec (lit "Leader") (lit "int32") (lit "0+") [] [] [] None false (RNone) [];
 FSpec (lit "LeaderEpoch") (lit "int32") (lit "0+") [] [] [] None false (RNone) [];
 FSpec (lit "Isr") (lit "[]int32") (lit "0+") [] [] [] None false (RNone) [];
 FSpec (lit "ZkVersion") (lit "int32") (lit "0+") [] [] [] None false (RNone) [];
 FSpec (lit "Replicas") (lit "[]int32") (lit "0+") [] [] [] None false (RNone) [];
 FSpec (lit "OfflineReplicas") (lit "[]int32") (lit "4+") [] [] [] None true (RNone) []])].
(* protocol_spec/UpdateMetadataResponse.json *)
Definition d_UpdateMetadataResponse : mspec := MSpec (lit "0-8") (lit "6+") [
 FSpec (lit "ErrorCode") (lit "int16") (lit "0+") [] [] [] None false (RNone) []] [].
(* protocol_spec/VoteRequest.json *)
Definition d_VoteRequest : mspec := MSpec (lit "0") (lit "0+") [
 FSpec (lit "ClusterId") (lit "string") (lit "0+") [] (lit "0+") [] None false (RStr (lit "null")) [];
 FSpec (lit "Topics") (lit "[]TopicData") (lit "0+") [] [] [] None false (RNone) [
  FSpec (lit "TopicName") (lit "string") (lit "0+") [] [] [] None false (RNone) [];
  FSpec (lit "Partitions") (lit "[]PartitionData") (lit "0+") [] [] [] None false (RNone) [
   FSpec (lit "PartitionIndex") (lit "int32") (lit "0+") [] [] [] None false (RNone) [];
   FSpec (lit "CandidateEpoch") (lit "int32") (lit "0+") [] [] [] None false (RNone) [];
   FSpec (lit "CandidateId") (lit "int32") (lit "0+") [] [] [] None false (RNone) [];
   FSpec (lit "LastOffsetEpoch") (lit "int32") (lit "0+") [] [] [] None false (RNone) [];
   FSpec (lit "LastOffset") (lit "int64") (lit "0+") [] [] [] None false (RNone) []]]] [].
(* protocol_spec/VoteResponse.json *)
Definition d_VoteResponse : mspec := MSpec (lit "0") (lit "0+") [
 FSpec (lit "ErrorCode") (lit "int16") (lit "0+") [] [] [] None false (RNone) [];
 FSpec (lit "Topics") (lit "[]TopicData") (lit "0+") [] [] [] None false (RNone) [
  FSpec (lit "TopicName") (lit "string") (lit "0+") [] [] [] None false (RNone) [];
  FSpec (lit "Partitions") (lit "[]PartitionData") (lit "0+") [] [] [] None false (RNone) [
   FSpec (lit "PartitionIndex") (lit "int32") (lit "0+") [] [] [] None false (RNone) [];
   FSpec (lit "ErrorCode") (lit "int16") (lit "0+") [] [] [] None false (RNone) [];
   FSpec (lit "LeaderId") (lit "int32") (lit "0+") [] [] [] None false (RNone) [];
   FSpec (lit "LeaderEpoch") (lit "int32") (lit "0+") [] [] [] None false (RNone) [];
   FSpec (lit "VoteGranted") (lit "bool") (lit "0+") [] [] [] None false (RNone) []]]] [].
(* protocol_spec/WriteTxnMarkersRequest.json *)
Definition d_WriteTxnMarkersRequest : mspec := MSpec (lit "0-1") (lit "1+") [
 FSpec (lit "Markers") (lit "[]WritableTxnMarker") (lit "0+") [] [] [] None false (RNone) [
  FSpec (lit "ProducerId") (lit "int64") (lit "0+") [] [] [] None false (RNone) [];
  FSpec (lit "ProducerEpoch") (lit "int16") (lit "0+") [] [] [] None false (RNone) [];
  FSpec (lit "TransactionResult") (lit "bool") (lit "0+") [] [] [] None false (RNone) [];
  FSpec (lit "Topics") (lit "[]WritableTxnMarkerTopic") (lit "0+") [] [] [] None false (RNone) [
   FSpec (lit "Name") (lit "string") (lit "0+") [] [] [] None false (RNone) [];
   FSpec (lit "PartitionIndexes") (lit "[]int32") (lit "0+") [] [] [] None false (RNone) []];
  FSpec (lit "CoordinatorEpoch") (lit "int32") (lit "0+") [] [] [] None false (RNone) []]] [].
(* protocol_spec/WriteTxnMarkersResponse.json *)
Definition d_WriteTxnMarkersResponse : mspec := MSpec (lit "0-1") (lit "1+") [
 FSpec (lit "Markers") (lit "[]WritableTxnMarkerResult") (lit "0+") [] [] [] None false (RNone) [
  FSpec (lit "ProducerId") (lit "int64") (lit "0+") [] [] [] None false (RNone) [];
  FSpec (lit "Topics") (lit "[]WritableTxnMarkerTopicResult") (lit "0+") [] [] [] None false (RNone) [
   FSpec (lit "Name") (lit "string") (lit "0+") [] [] [] None false (RNone) [];
   FSpec (lit "Partitions") (lit "[]WritableTxnMarkerPartitionResult") (lit "0+") [] [] [] None false (RNone) [
    FSpec (lit "PartitionIndex") (lit "int32") (lit "0+") [] [] [] None false (RNone) [];
    FSpec (lit "ErrorCode") (lit "int16") (lit "0+") [] [] [] None false (RNone) []]]]] [].
Definition req_specs : list (Z * mspec) := [((0)%Z, d_ProduceRequest);
  ((1)%Z, d_FetchRequest);
  ((2)%Z, d_ListOffsetsRequest);
  ((3)%Z, d_MetadataRequest);
  ((4)%Z, d_LeaderAndIsrRequest);
  ((5)%Z, d_StopReplicaRequest);
  ((6)%Z, d_UpdateMetadataRequest);
  ((7)%Z, d_ControlledShutdownRequest);
  ((8)%Z, d_OffsetCommitRequest);
  ((9)%Z, d_OffsetFetchRequest);
  ((10)%Z, d_FindCoordinatorRequest);
  ((11)%Z, d_JoinGroupRequest);
  ((12)%Z, d_HeartbeatRequest);
  ((13)%Z, d_LeaveGroupRequest);
  ((14)%Z, d_SyncGroupRequest);
  ((15)%Z, d_DescribeGroupsRequest);
  ((16)%Z, d_ListGroupsRequest);
  ((17)%Z, d_SaslHandshakeRequest);
  ((18)%Z, d_ApiVersionsRequest);
  ((19)%Z, d_CreateTopicsRequest);
  ((20)%Z, d_DeleteTopicsRequest);
  ((21)%Z, d_DeleteRecordsRequest);
  ((22)%Z, d_InitProducerIdRequest);
  ((23)%Z, d_OffsetForLeaderEpochRequest);
  ((24)%Z, d_AddPartitionsToTxnRequest);
  ((25)%Z, d_AddOffsetsToTxnRequest);
  ((26)%Z, d_EndTxnRequest);
  ((27)%Z, d_WriteTxnMarkersRequest);
  ((28)%Z, d_TxnOffsetCommitRequest);
  ((29)%Z, d_DescribeAclsRequest);
  ((30)%Z, d_CreateAclsRequest);
  ((31)%Z, d_DeleteAclsRequest);
  ((32)%Z, d_DescribeConfigsRequest);
  ((33)%Z, d_AlterConfigsRequest);
  ((34)%Z, d_AlterReplicaLogDirsRequest);
  ((35)%Z, d_DescribeLogDirsRequest);
  ((36)%Z, d_SaslAuthenticateRequest);
  ((37)%Z, d_CreatePartitionsRequest);
  ((38)%Z, d_CreateDelegationTokenRequest);
  ((39)%Z, d_RenewDelegationTokenRequest);
  ((40)%Z, d_ExpireDelegationTokenRequest);
  ((41)%Z, d_DescribeDelegationTokenRequest);
  ((42)%Z, d_DeleteGroupsRequest);
  ((43)%Z, d_ElectLeadersRequest);
  ((44)%Z, d_IncrementalAlterConfigsRequest);
  ((45)%Z, d_AlterPartitionReassignmentsRequest);
  ((46)%Z, d_ListPartitionReassignmentsRequest);
  ((47)%Z, d_OffsetDeleteRequest);
  ((48)%Z, d_DescribeClientQuotasRequest);
  ((49)%Z, d_AlterClientQuotasRequest);
  ((50)%Z, d_DescribeUserScramCredentialsRequest);
  ((51)%Z, d_AlterUserScramCredentialsRequest);
  ((52)%Z, d_VoteRequest);
  ((53)%Z, d_BeginQuorumEpochRequest);
  ((54)%Z, d_EndQuorumEpochRequest);
  ((55)%Z, d_DescribeQuorumRequest);
  ((56)%Z, d_AlterPartitionRequest);
  ((57)%Z, d_UpdateFeaturesRequest);
  ((58)%Z, d_EnvelopeRequest);
  ((59)%Z, d_FetchSnapshotRequest);
  ((60)%Z, d_DescribeClusterRequest);
  ((61)%Z, d_DescribeProducersRequest);
  ((62)%Z, d_BrokerRegistrationRequest);
  ((63)%Z, d_BrokerHeartbeatRequest);
  ((64)%Z, d_UnregisterBrokerRequest);
  ((65)%Z, d_DescribeTransactionsRequest);
  ((66)%Z, d_ListTransactionsRequest);
  ((67)%Z, d_AllocateProducerIdsRequest)].
Definition resp_specs : list (Z * mspec) := [((0)%Z, d_ProduceResponse);
  ((1)%Z, d_FetchResponse);
  ((2)%Z, d_ListOffsetsResponse);
  ((3)%Z, d_MetadataResponse);
  ((4)%Z, d_LeaderAndIsrResponse);
  ((5)%Z, d_StopReplicaResponse);
  ((6)%Z, d_UpdateMetadataResponse);
  ((7)%Z, d_ControlledShutdownResponse);
  ((8)%Z, d_OffsetCommitResponse);
  ((9)%Z, d_OffsetFetchResponse);
  ((10)%Z, d_FindCoordinatorResponse);
  ((11)%Z, d_JoinGroupResponse);
  ((12)%Z, d_HeartbeatResponse);
  ((13)%Z, d_LeaveGroupResponse);
  ((14)%Z, d_SyncGroupResponse);
  ((15)%Z, d_DescribeGroupsResponse);
  ((16)%Z, d_ListGroupsResponse);
  ((17)%Z, d_SaslHandshakeResponse);
  ((18)%Z, d_ApiVersionsResponse);
  ((19)%Z, d_CreateTopicsResponse);
  ((20)%Z, d_DeleteTopicsResponse);
  ((21)%Z, d_DeleteRecordsResponse);
  ((22)%Z, d_InitProducerIdResponse);
  ((23)%Z, d_OffsetForLeaderEpochResponse);
  ((24)%Z, d_AddPartitionsToTxnResponse);
  ((25)%Z, d_AddOffsetsToTxnResponse);
  ((26)%Z, d_EndTxnResponse);
  ((27)%Z, d_WriteTxnMarkersResponse);
  ((28)%Z, d_TxnOffsetCommitResponse);
  ((29)%Z, d_DescribeAclsResponse);
  ((30)%Z, d_CreateAclsResponse);
  ((31)%Z, d_DeleteAclsResponse);
  ((32)%Z, d_DescribeConfigsResponse);
  ((33)%Z, d_AlterConfigsResponse);
  ((34)%Z, d_AlterReplicaLogDirsResponse);
  ((35)%Z, d_DescribeLogDirsResponse);
  ((36)%Z, d_SaslAuthenticateResponse);
  ((37)%Z, d_CreatePartitionsResponse);
  ((38)%Z, d_CreateDelegationTokenResponse);
  ((39)%Z, d_RenewDelegationTokenResponse);
  ((40)%Z, d_ExpireDelegationTokenResponse);
  ((41)%Z, d_DescribeDelegationTokenResponse);
  ((42)%Z, d_DeleteGroupsResponse);
  ((43)%Z, d_ElectLeadersResponse);
  ((44)%Z, d_IncrementalAlterConfigsResponse);
  ((45)%Z, d_AlterPartitionReassignmentsResponse);
  ((46)%Z, d_ListPartitionReassignmentsResponse);
  ((47)%Z, d_OffsetDeleteResponse);
  ((48)%Z, d_DescribeClientQuotasResponse);
  ((49)%Z, d_AlterClientQuotasResponse);
  ((50)%Z, d_DescribeUserScramCredentialsResponse);
  ((51)%Z, d_AlterUserScramCredentialsResponse);
  ((52)%Z, d_VoteResponse);
  ((53)%Z, d_BeginQuorumEpochResponse);
  ((54)%Z, d_EndQuorumEpochResponse);
  ((55)%Z, d_DescribeQuorumResponse);
  ((56)%Z, d_AlterPartitionResponse);
  ((57)%Z, d_UpdateFeaturesResponse);
  ((58)%Z, d_EnvelopeResponse);
  ((59)%Z, d_FetchSnapshotResponse);
  ((60)%Z, d_DescribeClusterResponse);
  ((61)%Z, d_DescribeProducersResponse);
  ((62)%Z, d_BrokerRegistrationResponse);
  ((63)%Z, d_BrokerHeartbeatResponse);
  ((64)%Z, d_UnregisterBrokerResponse);
  ((65)%Z, d_DescribeTransactionsResponse);
  ((66)%Z, d_ListTransactionsResponse);
  ((67)%Z, d_AllocateProducerIdsResponse)].
Definition header_specs : list mspec := [d_RequestHeader; d_ResponseHeader].
