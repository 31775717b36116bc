(** S3 error codes (/repo/src/errors.rs).  Definitions only. *)
From Verif Require Import M_Base.

(* [enum S3ErrorCode], /repo/src/errors.rs:232-501. *)
Inductive s3_code : Type :=
| AccessDenied
| AccountProblem
| AllAccessDisabled
| AmbiguousGrantByEmailAddress
| AuthorizationHeaderMalformed
| BadDigest
| BucketAlreadyExists
| BucketAlreadyOwnedByYou
| BucketNotEmpty
| CredentialsNotSupported
| CrossLocationLoggingProhibited
| EntityTooSmall
| EntityTooLarge
| ExpiredToken
| IllegalLocationConstraintException
| IllegalVersioningConfigurationException
| IncompleteBody
| IncorrectNumberOfFilesInPostRequest
| InlineDataTooLarge
| InternalError
| InvalidAccessKeyId
| InvalidAddressingHeader
| InvalidArgument
| InvalidBucketName
| InvalidBucketState
| InvalidDigest
| InvalidEncryptionAlgorithmError
| InvalidLocationConstraint
| InvalidObjectState
| InvalidPart
| InvalidPartOrder
| InvalidPayer
| InvalidPolicyDocument
| InvalidRange
| InvalidRequest
| InvalidSecurity
| InvalidSOAPRequest
| InvalidStorageClass
| InvalidTargetBucketForLogging
| InvalidToken
| InvalidURI
| KeyTooLongError
| MalformedACLError
| MalformedPOSTRequest
| MalformedXML
| MaxMessageLengthExceeded
| MaxPostPreDataLengthExceededError
| MetadataTooLarge
| MethodNotAllowed
| MissingAttachment
| MissingContentLength
| MissingRequestBodyError
| MissingSecurityElement
| MissingSecurityHeader
| NoLoggingStatusForKey
| NoSuchBucket
| NoSuchBucketPolicy
| NoSuchKey
| NoSuchLifecycleConfiguration
| NoSuchUpload
| NoSuchVersion
| NotImplemented
| NotSignedUp
| NotSupported
| ObjectNotInActiveTierError
| OperationAborted
| PermanentRedirect
| PreconditionFailed
| Redirect
| RestoreAlreadyInProgress
| RequestIsNotMultiPartContent
| RequestTimeout
| RequestTimeTooSkewed
| RequestTorrentOfBucketError
| ServerSideEncryptionConfigurationNotFoundError
| ServiceUnavailable
| SignatureDoesNotMatch
| SlowDown
| TemporaryRedirect
| TokenRefreshRequired
| TooManyBuckets
| UnexpectedContent
| UnresolvableGrantByEmailAddress
| UserKeyMustBeSpecified
| XAmzContentSHA256Mismatch.

Global Instance s3_code_eq_dec : EqDecision s3_code.
Proof. solve_decision. Defined.

(* [as_static_str], /repo/src/errors.rs:524-530 with the list at 642-728. *)
Definition code_str (c : s3_code) : bytes :=
  match c with
  | AccessDenied => B "AccessDenied"
  | AccountProblem => B "AccountProblem"
  | AllAccessDisabled => B "AllAccessDisabled"
  | AmbiguousGrantByEmailAddress => B "AmbiguousGrantByEmailAddress"
  | AuthorizationHeaderMalformed => B "AuthorizationHeaderMalformed"
  | BadDigest => B "BadDigest"
  | BucketAlreadyExists => B "BucketAlreadyExists"
  | BucketAlreadyOwnedByYou => B "BucketAlreadyOwnedByYou"
  | BucketNotEmpty => B "BucketNotEmpty"
  | CredentialsNotSupported => B "CredentialsNotSupported"
  | CrossLocationLoggingProhibited => B "CrossLocationLoggingProhibited"
  | EntityTooSmall => B "EntityTooSmall"
  | EntityTooLarge => B "EntityTooLarge"
  | ExpiredToken => B "ExpiredToken"
  | IllegalLocationConstraintException => B "IllegalLocationConstraintException"
  | IllegalVersioningConfigurationException => B "IllegalVersioningConfigurationException"
  | IncompleteBody => B "IncompleteBody"
  | IncorrectNumberOfFilesInPostRequest => B "IncorrectNumberOfFilesInPostRequest"
  | InlineDataTooLarge => B "InlineDataTooLarge"
  | InternalError => B "InternalError"
  | InvalidAccessKeyId => B "InvalidAccessKeyId"
  | InvalidAddressingHeader => B "InvalidAddressingHeader"
  | InvalidArgument => B "InvalidArgument"
  | InvalidBucketName => B "InvalidBucketName"
  | InvalidBucketState => B "InvalidBucketState"
  | InvalidDigest => B "InvalidDigest"
  | InvalidEncryptionAlgorithmError => B "InvalidEncryptionAlgorithmError"
  | InvalidLocationConstraint => B "InvalidLocationConstraint"
  | InvalidObjectState => B "InvalidObjectState"
  | InvalidPart => B "InvalidPart"
  | InvalidPartOrder => B "InvalidPartOrder"
  | InvalidPayer => B "InvalidPayer"
  | InvalidPolicyDocument => B "InvalidPolicyDocument"
  | InvalidRange => B "InvalidRange"
  | InvalidRequest => B "InvalidRequest"
  | InvalidSecurity => B "InvalidSecurity"
  | InvalidSOAPRequest => B "InvalidSOAPRequest"
  | InvalidStorageClass => B "InvalidStorageClass"
  | InvalidTargetBucketForLogging => B "InvalidTargetBucketForLogging"
  | InvalidToken => B "InvalidToken"
  | InvalidURI => B "InvalidURI"
  | KeyTooLongError => B "KeyTooLongError"
  | MalformedACLError => B "MalformedACLError"
  | MalformedPOSTRequest => B "MalformedPOSTRequest"
  | MalformedXML => B "MalformedXML"
  | MaxMessageLengthExceeded => B "MaxMessageLengthExceeded"
  | MaxPostPreDataLengthExceededError => B "MaxPostPreDataLengthExceededError"
  | MetadataTooLarge => B "MetadataTooLarge"
  | MethodNotAllowed => B "MethodNotAllowed"
  | MissingAttachment => B "MissingAttachment"
  | MissingContentLength => B "MissingContentLength"
  | MissingRequestBodyError => B "MissingRequestBodyError"
  | MissingSecurityElement => B "MissingSecurityElement"
  | MissingSecurityHeader => B "MissingSecurityHeader"
  | NoLoggingStatusForKey => B "NoLoggingStatusForKey"
  | NoSuchBucket => B "NoSuchBucket"
  | NoSuchBucketPolicy => B "NoSuchBucketPolicy"
  | NoSuchKey => B "NoSuchKey"
  | NoSuchLifecycleConfiguration => B "NoSuchLifecycleConfiguration"
  | NoSuchUpload => B "NoSuchUpload"
  | NoSuchVersion => B "NoSuchVersion"
  | NotImplemented => B "NotImplemented"
  | NotSignedUp => B "NotSignedUp"
  | NotSupported => B "NotSupported"
  | ObjectNotInActiveTierError => B "ObjectNotInActiveTierError"
  | OperationAborted => B "OperationAborted"
  | PermanentRedirect => B "PermanentRedirect"
  | PreconditionFailed => B "PreconditionFailed"
  | Redirect => B "Redirect"
  | RestoreAlreadyInProgress => B "RestoreAlreadyInProgress"
  | RequestIsNotMultiPartContent => B "RequestIsNotMultiPartContent"
  | RequestTimeout => B "RequestTimeout"
  | RequestTimeTooSkewed => B "RequestTimeTooSkewed"
  | RequestTorrentOfBucketError => B "RequestTorrentOfBucketError"
  | ServerSideEncryptionConfigurationNotFoundError => B "ServerSideEncryptionConfigurationNotFoundError"
  | ServiceUnavailable => B "ServiceUnavailable"
  | SignatureDoesNotMatch => B "SignatureDoesNotMatch"
  | SlowDown => B "SlowDown"
  | TemporaryRedirect => B "TemporaryRedirect"
  | TokenRefreshRequired => B "TokenRefreshRequired"
  | TooManyBuckets => B "TooManyBuckets"
  | UnexpectedContent => B "UnexpectedContent"
  | UnresolvableGrantByEmailAddress => B "UnresolvableGrantByEmailAddress"
  | UserKeyMustBeSpecified => B "UserKeyMustBeSpecified"
  | XAmzContentSHA256Mismatch => B "XAmzContentSHA256Mismatch"
  end.

(* The arms of [parse_from_str] in source order, /repo/src/errors.rs:642-728. *)
Definition code_arms : list (bytes * s3_code) :=
  [(B "AccessDenied", AccessDenied);
   (B "AccountProblem", AccountProblem);
   (B "AllAccessDisabled", AllAccessDisabled);
   (B "AmbiguousGrantByEmailAddress", AmbiguousGrantByEmailAddress);
   (B "AuthorizationHeaderMalformed", AuthorizationHeaderMalformed);
   (B "BadDigest", BadDigest);
   (B "BucketAlreadyExists", BucketAlreadyExists);
   (B "BucketAlreadyOwnedByYou", BucketAlreadyOwnedByYou);
   (B "BucketNotEmpty", BucketNotEmpty);
   (B "CredentialsNotSupported", CredentialsNotSupported);
   (B "CrossLocationLoggingProhibited", CrossLocationLoggingProhibited);
   (B "EntityTooSmall", EntityTooSmall);
   (B "EntityTooLarge", EntityTooLarge);
   (B "ExpiredToken", ExpiredToken);
   (B "IllegalLocationConstraintException", IllegalLocationConstraintException);
   (B "IllegalVersioningConfigurationException", IllegalVersioningConfigurationException);
   (B "IncompleteBody", IncompleteBody);
   (B "IncorrectNumberOfFilesInPostRequest", IncorrectNumberOfFilesInPostRequest);
   (B "InlineDataTooLarge", InlineDataTooLarge);
   (B "InternalError", InternalError);
   (B "InvalidAccessKeyId", InvalidAccessKeyId);
   (B "InvalidAddressingHeader", InvalidAddressingHeader);
   (B "InvalidArgument", InvalidArgument);
   (B "InvalidBucketName", InvalidBucketName);
   (B "InvalidBucketState", InvalidBucketState);
   (B "InvalidDigest", InvalidDigest);
   (B "InvalidEncryptionAlgorithmError", InvalidEncryptionAlgorithmError);
   (B "InvalidLocationConstraint", InvalidLocationConstraint);
   (B "InvalidObjectState", InvalidObjectState);
   (B "InvalidPart", InvalidPart);
   (B "InvalidPartOrder", InvalidPartOrder);
   (B "InvalidPayer", InvalidPayer);
   (B "InvalidPolicyDocument", InvalidPolicyDocument);
   (B "InvalidRange", InvalidRange);
   (B "InvalidRequest", InvalidRequest);
   (B "InvalidSecurity", InvalidSecurity);
   (B "InvalidSOAPRequest", InvalidSOAPRequest);
   (B "InvalidStorageClass", InvalidStorageClass);
   (B "InvalidTargetBucketForLogging", InvalidTargetBucketForLogging);
   (B "InvalidToken", InvalidToken);
   (B "InvalidURI", InvalidURI);
   (B "KeyTooLongError", KeyTooLongError);
   (B "MalformedACLError", MalformedACLError);
   (B "MalformedPOSTRequest", MalformedPOSTRequest);
   (B "MalformedXML", MalformedXML);
   (B "MaxMessageLengthExceeded", MaxMessageLengthExceeded);
   (B "MaxPostPreDataLengthExceededError", MaxPostPreDataLengthExceededError);
   (B "MetadataTooLarge", MetadataTooLarge);
   (B "MethodNotAllowed", MethodNotAllowed);
   (B "MissingAttachment", MissingAttachment);
   (B "MissingContentLength", MissingContentLength);
   (B "MissingRequestBodyError", MissingRequestBodyError);
   (B "MissingSecurityElement", MissingSecurityElement);
   (B "MissingSecurityHeader", MissingSecurityHeader);
   (B "NoLoggingStatusForKey", NoLoggingStatusForKey);
   (B "NoSuchBucket", NoSuchBucket);
   (B "NoSuchBucketPolicy", NoSuchBucketPolicy);
   (B "NoSuchKey", NoSuchKey);
   (B "NoSuchLifecycleConfiguration", NoSuchLifecycleConfiguration);
   (B "NoSuchUpload", NoSuchUpload);
   (B "NoSuchVersion", NoSuchVersion);
   (B "NotImplemented", NotImplemented);
   (B "NotSignedUp", NotSignedUp);
   (B "NotSupported", NotSupported);
   (B "ObjectNotInActiveTierError", ObjectNotInActiveTierError);
   (B "OperationAborted", OperationAborted);
   (B "PermanentRedirect", PermanentRedirect);
   (B "PreconditionFailed", PreconditionFailed);
   (B "Redirect", Redirect);
   (B "RestoreAlreadyInProgress", RestoreAlreadyInProgress);
   (B "RequestIsNotMultiPartContent", RequestIsNotMultiPartContent);
   (B "RequestTimeout", RequestTimeout);
   (B "RequestTimeTooSkewed", RequestTimeTooSkewed);
   (B "RequestTorrentOfBucketError", RequestTorrentOfBucketError);
   (B "ServerSideEncryptionConfigurationNotFoundError", ServerSideEncryptionConfigurationNotFoundError);
   (B "ServiceUnavailable", ServiceUnavailable);
   (B "SignatureDoesNotMatch", SignatureDoesNotMatch);
   (B "SlowDown", SlowDown);
   (B "TemporaryRedirect", TemporaryRedirect);
   (B "TokenRefreshRequired", TokenRefreshRequired);
   (B "TooManyBuckets", TooManyBuckets);
   (B "UnexpectedContent", UnexpectedContent);
   (B "UnresolvableGrantByEmailAddress", UnresolvableGrantByEmailAddress);
   (B "UserKeyMustBeSpecified", UserKeyMustBeSpecified);
   (B "XAmzContentSHA256Mismatch", XAmzContentSHA256Mismatch)].

(* [parse_from_str], /repo/src/errors.rs:535-545: the first arm that matches. *)
Definition code_parse (s : bytes) : option s3_code :=
  match find (fun a => beq s a.1) code_arms with
  | Some a => Some a.2
  | None => None
  end.

(* [as_status_code], /repo/src/errors.rs:552-640. *)
Definition code_status (c : s3_code) : option N :=
  match c with
  | AccessDenied => Some 403%N
  | AccountProblem => Some 403%N
  | AllAccessDisabled => Some 403%N
  | AmbiguousGrantByEmailAddress => Some 400%N
  | AuthorizationHeaderMalformed => Some 400%N
  | BadDigest => Some 400%N
  | BucketAlreadyExists => Some 409%N
  | BucketAlreadyOwnedByYou => Some 409%N
  | BucketNotEmpty => Some 409%N
  | CredentialsNotSupported => Some 400%N
  | CrossLocationLoggingProhibited => Some 403%N
  | EntityTooSmall => Some 400%N
  | EntityTooLarge => Some 400%N
  | ExpiredToken => Some 400%N
  | IllegalLocationConstraintException => Some 400%N
  | IllegalVersioningConfigurationException => Some 400%N
  | IncompleteBody => Some 400%N
  | IncorrectNumberOfFilesInPostRequest => Some 400%N
  | InlineDataTooLarge => Some 400%N
  | InternalError => Some 500%N
  | InvalidAccessKeyId => Some 403%N
  | InvalidAddressingHeader => None
  | InvalidArgument => Some 400%N
  | InvalidBucketName => Some 400%N
  | InvalidBucketState => Some 409%N
  | InvalidDigest => Some 400%N
  | InvalidEncryptionAlgorithmError => Some 400%N
  | InvalidLocationConstraint => Some 400%N
  | InvalidObjectState => Some 403%N
  | InvalidPart => Some 400%N
  | InvalidPartOrder => Some 400%N
  | InvalidPayer => Some 403%N
  | InvalidPolicyDocument => Some 400%N
  | InvalidRange => Some 416%N
  | InvalidRequest => Some 400%N
  | InvalidSecurity => Some 403%N
  | InvalidSOAPRequest => Some 400%N
  | InvalidStorageClass => Some 400%N
  | InvalidTargetBucketForLogging => Some 400%N
  | InvalidToken => Some 400%N
  | InvalidURI => Some 400%N
  | KeyTooLongError => Some 400%N
  | MalformedACLError => Some 400%N
  | MalformedPOSTRequest => Some 400%N
  | MalformedXML => Some 400%N
  | MaxMessageLengthExceeded => Some 400%N
  | MaxPostPreDataLengthExceededError => Some 400%N
  | MetadataTooLarge => Some 400%N
  | MethodNotAllowed => Some 405%N
  | MissingAttachment => None
  | MissingContentLength => Some 411%N
  | MissingRequestBodyError => Some 400%N
  | MissingSecurityElement => Some 400%N
  | MissingSecurityHeader => Some 400%N
  | NoLoggingStatusForKey => Some 400%N
  | NoSuchBucket => Some 404%N
  | NoSuchBucketPolicy => Some 404%N
  | NoSuchKey => Some 404%N
  | NoSuchLifecycleConfiguration => Some 404%N
  | NoSuchUpload => Some 404%N
  | NoSuchVersion => Some 404%N
  | NotImplemented => Some 501%N
  | NotSignedUp => Some 403%N
  | NotSupported => None
  | ObjectNotInActiveTierError => Some 200%N
  | OperationAborted => Some 409%N
  | PermanentRedirect => Some 301%N
  | PreconditionFailed => Some 412%N
  | Redirect => Some 307%N
  | RestoreAlreadyInProgress => Some 409%N
  | RequestIsNotMultiPartContent => Some 400%N
  | RequestTimeout => Some 400%N
  | RequestTimeTooSkewed => Some 403%N
  | RequestTorrentOfBucketError => Some 400%N
  | ServerSideEncryptionConfigurationNotFoundError => Some 400%N
  | ServiceUnavailable => Some 503%N
  | SignatureDoesNotMatch => Some 403%N
  | SlowDown => Some 503%N
  | TemporaryRedirect => Some 307%N
  | TokenRefreshRequired => Some 400%N
  | TooManyBuckets => Some 400%N
  | UnexpectedContent => Some 400%N
  | UnresolvableGrantByEmailAddress => Some 400%N
  | UserKeyMustBeSpecified => Some 400%N
  | XAmzContentSHA256Mismatch => Some 400%N
  end.

(* Status of an error response, /repo/src/output.rs:35-38: 500 when the code has none. *)
Definition response_status (c : s3_code) : N :=
  match code_status c with Some s => s | None => 500%N end.
