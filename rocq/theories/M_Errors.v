(* http/status/errors.go: all predefined errors. *)
From Verif Require Import M_Base M_Status.

(* errors.go:8-13 NewError: an HTTPError by value *)
Definition new_error (c : code) (msg : bytes) : http_error := HTTPError c msg.
(* errors.go:15-17 Error *)
Definition error_text (e : http_error) : bytes := he_msg e.
(* Go's == on two errors whose dynamic type is HTTPError: field by field *)
Definition same_error (a b : http_error) : bool := (he_code a =? he_code b)%N && beqb (he_msg a) (he_msg b).

(* errors.go:20-77: the errors by name; codes from codes.go:10-85 *)
Definition predefined : list (bytes * http_error) := [
  (B "ErrConnectionTimeout", new_error 408%N (B "connection timed out"));
  (B "ErrCloseConnection", new_error 439%N (B "internal error as a signal"));
  (B "ErrShutdown", new_error 439%N (B "shutdown"));
  (B "ErrGracefulShutdown", new_error 439%N (B "graceful shutdown"));
  (B "ErrBadRequest", new_error 400%N (B "bad request"));
  (B "ErrTooLongRequestLine", new_error 400%N (B "request line is too long"));
  (B "ErrURIDecoding", new_error 400%N (B "invalid URI encoding"));
  (B "ErrBadQuery", new_error 400%N (B "bad URL query"));
  (B "ErrNotFound", new_error 404%N (B "not found"));
  (B "ErrInternalServerError", new_error 500%N (B "internal server error"));
  (B "ErrNotImplemented", new_error 501%N (B "not implemented"));
  (B "ErrMethodNotImplemented", new_error 501%N (B "request method is not supported"));
  (B "ErrMethodNotAllowed", new_error 405%N (B "method not allowed"));
  (B "ErrTooLarge", new_error 413%N (B "too large"));
  (B "ErrBodyTooLarge", new_error 413%N (B "request body is too large"));
  (B "ErrRequestEntityTooLarge", new_error 413%N (B "request entity too large"));
  (B "ErrHeaderFieldsTooLarge", new_error 431%N (B "too large headers section"));
  (B "ErrHeaderKeyTooLarge", new_error 431%N (B "too large header key"));
  (B "ErrHeaderValueTooLarge", new_error 431%N (B "too large header value"));
  (B "ErrTooManyHeaders", new_error 431%N (B "too many headers"));
  (B "ErrRequestHeaderFieldsTooLarge", new_error 431%N (B "request header fields too large"));
  (B "ErrURITooLong", new_error 414%N (B "request URI too long"));
  (B "ErrRequestURITooLong", new_error 414%N (B "request URI too long"));
  (B "ErrUnsupportedProtocol", new_error 505%N (B "protocol is not supported"));
  (B "ErrHTTPVersionNotSupported", new_error 505%N (B "HTTP version not supported"));
  (B "ErrUnauthorized", new_error 401%N (B "unauthorized"));
  (B "ErrPaymentRequired", new_error 402%N (B "payment required"));
  (B "ErrForbidden", new_error 403%N (B "forbidden"));
  (B "ErrNotAcceptable", new_error 406%N (B "not acceptable"));
  (B "ErrProxyAuthRequired", new_error 407%N (B "proxy auth required"));
  (B "ErrRequestTimeout", new_error 408%N (B "request timeout"));
  (B "ErrConflict", new_error 409%N (B "conflict"));
  (B "ErrGone", new_error 410%N (B "gone"));
  (B "ErrLengthRequired", new_error 411%N (B "length required"));
  (B "ErrPreconditionFailed", new_error 412%N (B "precondition failed"));
  (B "ErrUnsupportedMediaType", new_error 415%N (B "unsupported media type"));
  (B "ErrUnsupportedEncoding", new_error 415%N (B "content encoding is not supported"));
  (B "ErrRequestedRangeNotSatisfiable", new_error 416%N (B "requested range not satisfiable"));
  (B "ErrExpectationFailed", new_error 417%N (B "expectation failed"));
  (B "ErrTeapot", new_error 418%N (B "i'm a teapot"));
  (B "ErrMisdirectedRequest", new_error 421%N (B "misdirected request"));
  (B "ErrUnprocessableEntity", new_error 422%N (B "unprocessable entity"));
  (B "ErrLocked", new_error 423%N (B "locked"));
  (B "ErrFailedDependency", new_error 424%N (B "failed dependency"));
  (B "ErrTooEarly", new_error 425%N (B "too early"));
  (B "ErrUpgradeRequired", new_error 426%N (B "upgrade required"));
  (B "ErrPreconditionRequired", new_error 428%N (B "precondition required"));
  (B "ErrTooManyRequests", new_error 429%N (B "too many requests"));
  (B "ErrUnavailableForLegalReasons", new_error 451%N (B "unavailable for legal reasons"));
  (B "ErrBadGateway", new_error 502%N (B "bad gateway"));
  (B "ErrServiceUnavailable", new_error 503%N (B "service unavailable"));
  (B "ErrGatewayTimeout", new_error 504%N (B "gateway timeout"));
  (B "ErrVariantAlsoNegotiates", new_error 506%N (B "variant also negotiates"));
  (B "ErrInsufficientStorage", new_error 507%N (B "insufficient storage"));
  (B "ErrLoopDetected", new_error 508%N (B "loop detected"));
  (B "ErrNotExtended", new_error 510%N (B "not extended"));
  (B "ErrNetworkAuthenticationRequired", new_error 511%N (B "network authentication required"))
].
