(** The HTTP status of each S3 error code, from the table "List of error codes" of the
    Amazon S3 API reference (as of the code's dependencies, 2022), grouped by status.
    Codes listed without a status there ("N/A") are answered with 500. *)
From Verif Require Import M_Base.

Definition documented_status : list (N * list bytes) :=
  [(301%N, [B "PermanentRedirect"]);
   (307%N, [B "Redirect"; B "TemporaryRedirect"]);
   (400%N, [B "AmbiguousGrantByEmailAddress"; B "AuthorizationHeaderMalformed"; B "BadDigest";
      B "CredentialsNotSupported"; B "EntityTooLarge"; B "EntityTooSmall"; B "ExpiredToken";
      B "IllegalLocationConstraintException"; B "IllegalVersioningConfigurationException";
      B "IncompleteBody"; B "IncorrectNumberOfFilesInPostRequest"; B "InlineDataTooLarge";
      B "InvalidArgument"; B "InvalidBucketName"; B "InvalidDigest";
      B "InvalidEncryptionAlgorithmError"; B "InvalidLocationConstraint"; B "InvalidPart";
      B "InvalidPartOrder"; B "InvalidPolicyDocument"; B "InvalidRequest"; B "InvalidSOAPRequest";
      B "InvalidStorageClass"; B "InvalidTargetBucketForLogging"; B "InvalidToken"; B "InvalidURI";
      B "KeyTooLongError"; B "MalformedACLError"; B "MalformedPOSTRequest"; B "MalformedXML";
      B "MaxMessageLengthExceeded"; B "MaxPostPreDataLengthExceededError"; B "MetadataTooLarge";
      B "MissingRequestBodyError"; B "MissingSecurityElement"; B "MissingSecurityHeader";
      B "NoLoggingStatusForKey"; B "RequestIsNotMultiPartContent"; B "RequestTimeout";
      B "RequestTorrentOfBucketError"; B "ServerSideEncryptionConfigurationNotFoundError";
      B "TokenRefreshRequired"; B "TooManyBuckets"; B "UnexpectedContent";
      B "UnresolvableGrantByEmailAddress"; B "UserKeyMustBeSpecified";
      B "XAmzContentSHA256Mismatch"]);
   (403%N, [B "AccessDenied"; B "AccountProblem"; B "AllAccessDisabled";
      B "CrossLocationLoggingProhibited"; B "InvalidAccessKeyId"; B "InvalidObjectState";
      B "InvalidPayer"; B "InvalidSecurity"; B "NotSignedUp"; B "ObjectNotInActiveTierError";
      B "RequestTimeTooSkewed"; B "SignatureDoesNotMatch"]);
   (404%N, [B "NoSuchBucket"; B "NoSuchBucketPolicy"; B "NoSuchKey";
      B "NoSuchLifecycleConfiguration"; B "NoSuchUpload"; B "NoSuchVersion"]);
   (405%N, [B "MethodNotAllowed"]);
   (409%N, [B "BucketAlreadyExists"; B "BucketAlreadyOwnedByYou"; B "BucketNotEmpty";
      B "InvalidBucketState"; B "OperationAborted"; B "RestoreAlreadyInProgress"]);
   (411%N, [B "MissingContentLength"]);
   (412%N, [B "PreconditionFailed"]);
   (416%N, [B "InvalidRange"]);
   (500%N, [B "InternalError"; B "InvalidAddressingHeader"; B "MissingAttachment";
      B "NotSupported"]);
   (501%N, [B "NotImplemented"]);
   (503%N, [B "ServiceUnavailable"; B "SlowDown"])].

(* [name] is documented with [status]. *)
Definition documented (name : bytes) (status : N) : Prop :=
  exists names, In (status, names) documented_status /\ In name names.
