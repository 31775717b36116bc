-Q theories Verif
theories/L_Auth.v
theories/L_Base.v
theories/L_Chunked.v
theories/L_Crypto.v
theories/L_Encode.v
theories/L_Form.v
theories/L_Fs.v
theories/L_Headers.v
theories/L_Json.v
theories/L_Map.v
theories/L_MapOps.v
theories/L_Mix.v
theories/L_Multipart.v
theories/L_Names.v
theories/L_Ops.v
theories/L_Ordered.v
theories/L_Par.v
theories/L_Parts.v
theories/L_Path.v
theories/L_Rely.v
theories/L_Request.v
theories/L_Results.v
theories/L_Scope.v
theories/L_Service.v
theories/L_SigV4.v
theories/L_Storage.v
theories/L_Tidy.v
theories/L_Time.v
theories/L_Utf8.v
theories/L_Xml.v
theories/M_Auth.v
theories/M_Base.v
theories/M_Birth.v
theories/M_BytesStream.v
theories/M_Chunked.v
theories/M_Clock.v
theories/M_Crypto.v
theories/M_Dates.v
theories/M_Download.v
theories/M_Dto.v
theories/M_Errors.v
theories/M_Fs.v
theories/M_Headers.v
theories/M_Http.v
theories/M_Json.v
theories/M_Main.v
theories/M_Multipart.v
theories/M_Ops.v
theories/M_Ordered.v
theories/M_Path.v
theories/M_Service.v
theories/M_SigV4.v
theories/M_Storage.v
theories/M_Time.v
theories/M_Utf8.v
theories/M_Wire.v
theories/M_Xml.v
theories/S_Birth.v
theories/S_Calls.v
theories/S_Chunked.v
theories/S_Dates.v
theories/S_Denials.v
theories/S_Dispatch.v
theories/S_Dto.v
theories/S_Errors.v
theories/S_Form.v
theories/S_Headers.v
theories/S_Http.v
theories/S_Json.v
theories/S_Map.v
theories/S_Multipart.v
theories/S_Names.v
theories/S_Path.v
theories/S_Server.v
theories/S_Service.v
theories/S_SigV4.v
theories/S_Storage.v
theories/S_Store.v
theories/S_Time.v
theories/S_Utf8.v
theories/S_Xml.v
theories/T_Answers.v
theories/T_Auth.v
theories/T_Backup.v
theories/T_Birth.v
theories/T_Buckets.v
theories/T_BytesStream.v
theories/T_Calls.v
theories/T_Canonical.v
theories/T_CanonicalUri.v
theories/T_Chunked.v
theories/T_Clock.v
theories/T_Concurrent.v
theories/T_Confine.v
theories/T_Copy.v
theories/T_Crash.v
theories/T_Dates.v
theories/T_Denials.v
theories/T_Directories.v
theories/T_Dispatch.v
theories/T_Dto.v
theories/T_Errors.v
theories/T_Etag.v
theories/T_Fields.v
theories/T_FileStream.v
theories/T_Folders.v
theories/T_Form.v
theories/T_Framing.v
theories/T_Head.v
theories/T_Headers.v
theories/T_Http.v
theories/T_Idempotent.v
theories/T_Isolation.v
theories/T_Json.v
theories/T_Keys.v
theories/T_Later.v
theories/T_Layout.v
theories/T_Listing.v
theories/T_Map.v
theories/T_Missing.v
theories/T_Mix.v
theories/T_Multipart.v
theories/T_Names.v
theories/T_Opaque.v
theories/T_Ordered.v
theories/T_Origin.v
theories/T_Paging.v
theories/T_Parallel.v
theories/T_Path.v
theories/T_Policy.v
theories/T_Presigned.v
theories/T_Ranges.v
theories/T_Refusal.v
theories/T_Replay.v
theories/T_Replies.v
theories/T_Retry.v
theories/T_Scope.v
theories/T_Secrets.v
theories/T_Server.v
theories/T_Space.v
theories/T_Store.v
theories/T_Stream.v
theories/T_Tamper.v
theories/T_Tenants.v
theories/T_Time.v
theories/T_Together.v
theories/T_Undisturbed.v
theories/T_Unread.v
theories/T_UploadId.v
theories/T_Uploads.v
theories/T_Upstream.v
theories/T_Utf8.v
theories/T_Vectors.v
theories/T_Web.v
theories/T_Wire.v
theories/T_Work.v
theories/T_Xml.v
