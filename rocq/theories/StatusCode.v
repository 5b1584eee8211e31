(** Model of src/status_code.rs. *)
From Verif Require Import Base.

(** src/status_code.rs:9-420, variants in source order. *)
Inductive status_code : Type :=
| S_Continue
| S_SwitchingProtocols
| S_EarlyHints
| S_Ok
| S_Created
| S_Accepted
| S_NonAuthoritativeInformation
| S_NoContent
| S_ResetContent
| S_PartialContent
| S_MultiStatus
| S_ImUsed
| S_MultipleChoice
| S_MovedPermanently
| S_Found
| S_SeeOther
| S_NotModified
| S_TemporaryRedirect
| S_PermanentRedirect
| S_BadRequest
| S_Unauthorized
| S_PaymentRequired
| S_Forbidden
| S_NotFound
| S_MethodNotAllowed
| S_NotAcceptable
| S_ProxyAuthenticationRequired
| S_RequestTimeout
| S_Conflict
| S_Gone
| S_LengthRequired
| S_PreconditionFailed
| S_PayloadTooLarge
| S_UriTooLong
| S_UnsupportedMediaType
| S_RequestedRangeNotSatisfiable
| S_ExpectationFailed
| S_ImATeapot
| S_MisdirectedRequest
| S_UnprocessableEntity
| S_Locked
| S_FailedDependency
| S_TooEarly
| S_UpgradeRequired
| S_PreconditionRequired
| S_TooManyRequests
| S_RequestHeaderFieldsTooLarge
| S_UnavailableForLegalReasons
| S_InternalServerError
| S_NotImplemented
| S_BadGateway
| S_ServiceUnavailable
| S_GatewayTimeout
| S_HttpVersionNotSupported
| S_VariantAlsoNegotiates
| S_InsufficientStorage
| S_LoopDetected
| S_NotExtended
| S_NetworkAuthenticationRequired.

(** [code as u16]: the explicit discriminants, src/status_code.rs:15-419; 620-624. *)
Definition code_u16 (c : status_code) : N :=
  match c with
  | S_Continue => 100
  | S_SwitchingProtocols => 101
  | S_EarlyHints => 103
  | S_Ok => 200
  | S_Created => 201
  | S_Accepted => 202
  | S_NonAuthoritativeInformation => 203
  | S_NoContent => 204
  | S_ResetContent => 205
  | S_PartialContent => 206
  | S_MultiStatus => 207
  | S_ImUsed => 226
  | S_MultipleChoice => 300
  | S_MovedPermanently => 301
  | S_Found => 302
  | S_SeeOther => 303
  | S_NotModified => 304
  | S_TemporaryRedirect => 307
  | S_PermanentRedirect => 308
  | S_BadRequest => 400
  | S_Unauthorized => 401
  | S_PaymentRequired => 402
  | S_Forbidden => 403
  | S_NotFound => 404
  | S_MethodNotAllowed => 405
  | S_NotAcceptable => 406
  | S_ProxyAuthenticationRequired => 407
  | S_RequestTimeout => 408
  | S_Conflict => 409
  | S_Gone => 410
  | S_LengthRequired => 411
  | S_PreconditionFailed => 412
  | S_PayloadTooLarge => 413
  | S_UriTooLong => 414
  | S_UnsupportedMediaType => 415
  | S_RequestedRangeNotSatisfiable => 416
  | S_ExpectationFailed => 417
  | S_ImATeapot => 418
  | S_MisdirectedRequest => 421
  | S_UnprocessableEntity => 422
  | S_Locked => 423
  | S_FailedDependency => 424
  | S_TooEarly => 425
  | S_UpgradeRequired => 426
  | S_PreconditionRequired => 428
  | S_TooManyRequests => 429
  | S_RequestHeaderFieldsTooLarge => 431
  | S_UnavailableForLegalReasons => 451
  | S_InternalServerError => 500
  | S_NotImplemented => 501
  | S_BadGateway => 502
  | S_ServiceUnavailable => 503
  | S_GatewayTimeout => 504
  | S_HttpVersionNotSupported => 505
  | S_VariantAlsoNegotiates => 506
  | S_InsufficientStorage => 507
  | S_LoopDetected => 508
  | S_NotExtended => 510
  | S_NetworkAuthenticationRequired => 511
  end.

(** src/status_code.rs:626-693 [TryFrom<u16>]; otherwise [bail!]: status 500. *)
Definition code_try_from (n : N) : outcome status_code :=
  match n with
  | 100 => Ok S_Continue
  | 101 => Ok S_SwitchingProtocols
  | 103 => Ok S_EarlyHints
  | 200 => Ok S_Ok
  | 201 => Ok S_Created
  | 202 => Ok S_Accepted
  | 203 => Ok S_NonAuthoritativeInformation
  | 204 => Ok S_NoContent
  | 205 => Ok S_ResetContent
  | 206 => Ok S_PartialContent
  | 207 => Ok S_MultiStatus
  | 226 => Ok S_ImUsed
  | 300 => Ok S_MultipleChoice
  | 301 => Ok S_MovedPermanently
  | 302 => Ok S_Found
  | 303 => Ok S_SeeOther
  | 304 => Ok S_NotModified
  | 307 => Ok S_TemporaryRedirect
  | 308 => Ok S_PermanentRedirect
  | 400 => Ok S_BadRequest
  | 401 => Ok S_Unauthorized
  | 402 => Ok S_PaymentRequired
  | 403 => Ok S_Forbidden
  | 404 => Ok S_NotFound
  | 405 => Ok S_MethodNotAllowed
  | 406 => Ok S_NotAcceptable
  | 407 => Ok S_ProxyAuthenticationRequired
  | 408 => Ok S_RequestTimeout
  | 409 => Ok S_Conflict
  | 410 => Ok S_Gone
  | 411 => Ok S_LengthRequired
  | 412 => Ok S_PreconditionFailed
  | 413 => Ok S_PayloadTooLarge
  | 414 => Ok S_UriTooLong
  | 415 => Ok S_UnsupportedMediaType
  | 416 => Ok S_RequestedRangeNotSatisfiable
  | 417 => Ok S_ExpectationFailed
  | 418 => Ok S_ImATeapot
  | 421 => Ok S_MisdirectedRequest
  | 422 => Ok S_UnprocessableEntity
  | 423 => Ok S_Locked
  | 424 => Ok S_FailedDependency
  | 425 => Ok S_TooEarly
  | 426 => Ok S_UpgradeRequired
  | 428 => Ok S_PreconditionRequired
  | 429 => Ok S_TooManyRequests
  | 431 => Ok S_RequestHeaderFieldsTooLarge
  | 451 => Ok S_UnavailableForLegalReasons
  | 500 => Ok S_InternalServerError
  | 501 => Ok S_NotImplemented
  | 502 => Ok S_BadGateway
  | 503 => Ok S_ServiceUnavailable
  | 504 => Ok S_GatewayTimeout
  | 505 => Ok S_HttpVersionNotSupported
  | 506 => Ok S_VariantAlsoNegotiates
  | 507 => Ok S_InsufficientStorage
  | 508 => Ok S_LoopDetected
  | 510 => Ok S_NotExtended
  | 511 => Ok S_NetworkAuthenticationRequired
  | _ => Err 500
  end.

(** src/status_code.rs:427-466 *)
Definition in_range (lo hi n : N) : bool := (lo <=? n) && (n <? hi).
(** src/status_code.rs:427-430. *)
Definition is_informational (c : status_code) : bool := in_range 100 200 (code_u16 c).
(** src/status_code.rs:436-439. *)
Definition is_success (c : status_code) : bool := in_range 200 300 (code_u16 c).
(** src/status_code.rs:445-448. *)
Definition is_redirection (c : status_code) : bool := in_range 300 400 (code_u16 c).
(** src/status_code.rs:454-457. *)
Definition is_client_error (c : status_code) : bool := in_range 400 500 (code_u16 c).
(** src/status_code.rs:463-466. *)
Definition is_server_error (c : status_code) : bool := in_range 500 600 (code_u16 c).

(** src/status_code.rs:469-531 *)
Definition canonical_reason (c : status_code) : str :=
  match c with
  | S_Continue => lit "Continue"
  | S_SwitchingProtocols => lit "Switching Protocols"
  | S_EarlyHints => lit "Early Hints"
  | S_Ok => lit "OK"
  | S_Created => lit "Created"
  | S_Accepted => lit "Accepted"
  | S_NonAuthoritativeInformation => lit "Non Authoritative Information"
  | S_NoContent => lit "No Content"
  | S_ResetContent => lit "Reset Content"
  | S_PartialContent => lit "Partial Content"
  | S_MultiStatus => lit "Multi-Status"
  | S_ImUsed => lit "Im Used"
  | S_MultipleChoice => lit "Multiple Choice"
  | S_MovedPermanently => lit "Moved Permanently"
  | S_Found => lit "Found"
  | S_SeeOther => lit "See Other"
  | S_NotModified => lit "Not Modified"
  | S_TemporaryRedirect => lit "Temporary Redirect"
  | S_PermanentRedirect => lit "Permanent Redirect"
  | S_BadRequest => lit "Bad Request"
  | S_Unauthorized => lit "Unauthorized"
  | S_PaymentRequired => lit "Payment Required"
  | S_Forbidden => lit "Forbidden"
  | S_NotFound => lit "Not Found"
  | S_MethodNotAllowed => lit "Method Not Allowed"
  | S_NotAcceptable => lit "Not Acceptable"
  | S_ProxyAuthenticationRequired => lit "Proxy Authentication Required"
  | S_RequestTimeout => lit "Request Timeout"
  | S_Conflict => lit "Conflict"
  | S_Gone => lit "Gone"
  | S_LengthRequired => lit "Length Required"
  | S_PreconditionFailed => lit "Precondition Failed"
  | S_PayloadTooLarge => lit "Payload Too Large"
  | S_UriTooLong => lit "URI Too Long"
  | S_UnsupportedMediaType => lit "Unsupported Media Type"
  | S_RequestedRangeNotSatisfiable => lit "Requested Range Not Satisfiable"
  | S_ExpectationFailed => lit "Expectation Failed"
  | S_ImATeapot => lit "I'm a teapot"
  | S_MisdirectedRequest => lit "Misdirected Request"
  | S_UnprocessableEntity => lit "Unprocessable Entity"
  | S_Locked => lit "Locked"
  | S_FailedDependency => lit "Failed Dependency"
  | S_TooEarly => lit "Too Early"
  | S_UpgradeRequired => lit "Upgrade Required"
  | S_PreconditionRequired => lit "Precondition Required"
  | S_TooManyRequests => lit "Too Many Requests"
  | S_RequestHeaderFieldsTooLarge => lit "Request Header Fields Too Large"
  | S_UnavailableForLegalReasons => lit "Unavailable For Legal Reasons"
  | S_InternalServerError => lit "Internal Server Error"
  | S_NotImplemented => lit "Not Implemented"
  | S_BadGateway => lit "Bad Gateway"
  | S_ServiceUnavailable => lit "Service Unavailable"
  | S_GatewayTimeout => lit "Gateway Timeout"
  | S_HttpVersionNotSupported => lit "HTTP Version Not Supported"
  | S_VariantAlsoNegotiates => lit "Variant Also Negotiates"
  | S_InsufficientStorage => lit "Insufficient Storage"
  | S_LoopDetected => lit "Loop Detected"
  | S_NotExtended => lit "Not Extended"
  | S_NetworkAuthenticationRequired => lit "Network Authentication Required"
  end.

(** src/status_code.rs:713-717 [Display] *)
Definition status_display (c : status_code) : str :=
  show_dec (code_u16 c) ++ lit ": " ++ canonical_reason c.

(** src/status_code.rs:540-618 serde.  [visit_i16/i32/i64/u32/u64] cast with [as u16], i.e. reduce
    modulo 65536 (two's complement), then [visit_u16] tries the conversion. *)
Definition status_serialize (c : status_code) : Z := Z.of_N (code_u16 c).
(** src/status_code.rs:545-617. *)
Definition status_deserialize (v : Z) : option status_code :=
  match code_try_from (Z.to_N (v mod 65536)) with Ok c => Some c | _ => None end.
