(** The lock skeletons of all functions of the API, of the event queue with its thread and of the platform with libevent, function by function. They were extracted from
    the sources with NABTO_DEVICE_FUTURE_QUEUE, NABTO_DEVICE_MBEDTLS and NABTO_DEVICE_PASSWORD_AUTHENTICATION defined. Simplifications: conditions are choices; what has no effect on locks,
    threads, the core or the lists of listeners is left out, as are functions of which nothing is left; logging and its callback, memory allocation, the modules of mbedtls and libevent and the
    initialisation and the end of the core in nabto_device_new and nabto_device_free, when nobody else uses the device, are left out; np_completion_event and np_event_queue functions are the functions
    of the event queue which they call; fields of the device which are read or written are not seen. Not extracted: nabto_device_experimental_set_private_key_secp256r1. *)
From Coq Require Import List String.
From Verif Require Import LockModel.
Import ListNotations.
Open Scope string_scope.

(** api/nabto_device.c 58-61. *)
Definition f_nabto_device_version : cmd := Ret.
(** api/nabto_device.c 63-68. *)
Definition f_nabto_device_new_resolve_failure : cmd := Call "nabto_device_do_stop" ;; Call "nabto_device_free".
(** api/nabto_device.c 73-184. *)
Definition f_nabto_device_new : cmd := If Ret Skip ;; If (Call "nabto_device_new_resolve_failure" ;; Ret) Skip ;; Call "nabto_device_platform_init" ;; If (Call
  "nabto_device_new_resolve_failure" ;; Ret) Skip ;; If (Call "nabto_device_new_resolve_failure" ;; Ret) Skip ;; If (Call "nabto_device_new_resolve_failure" ;; Ret) Skip ;; If (Call
  "nabto_device_new_resolve_failure" ;; Ret) Skip ;; If (Call "nabto_device_new_resolve_failure" ;; Ret) Skip ;; If (Call "nabto_device_new_resolve_failure" ;; Ret) Skip ;; If Skip (If (Call
  "nabto_device_new_resolve_failure" ;; Ret) Skip) ;; If (Call "nabto_device_new_resolve_failure" ;; Ret) Skip ;; If (Call "nabto_device_new_resolve_failure" ;; Ret) Skip ;; Ret.
(** api/nabto_device.c 189-209. *)
Definition f_nabto_device_stop : cmd := If Ret Skip ;; Call "nabto_device_listener_stop_all" ;; Lock Core ;; If Ext Skip ;; Ext ;; Unlock Core ;; Call "nabto_device_do_stop".
(** api/nabto_device.c 211-217. *)
Definition f_nabto_device_do_stop : cmd := Call "nabto_device_platform_stop_blocking" ;; Call "nabto_device_future_queue_stop".
(** api/nabto_device.c 222-263. *)
Definition f_nabto_device_free : cmd := If Ret Skip ;; Call "nabto_device_stop" ;; Call "destroy_event" ;; Call "nabto_device_platform_deinit".
(** api/nabto_device.c 268-276. *)
Definition f_nabto_device_set_product_id : cmd := Lock Core ;; Ext ;; Unlock Core ;; Ret.
(** api/nabto_device.c 278-286. *)
Definition f_nabto_device_get_product_id : cmd := Lock Core ;; Unlock Core ;; Ret.
(** api/nabto_device.c 288-295. *)
Definition f_nabto_device_set_device_id : cmd := Lock Core ;; Ext ;; Unlock Core ;; Ret.
(** api/nabto_device.c 297-305. *)
Definition f_nabto_device_get_device_id : cmd := Lock Core ;; Unlock Core ;; Ret.
(** api/nabto_device.c 307-314. *)
Definition f_nabto_device_set_server_url : cmd := Lock Core ;; Ext ;; Unlock Core ;; Ret.
(** api/nabto_device.c 316-324. *)
Definition f_nabto_device_set_server_port : cmd := Lock Core ;; Unlock Core ;; Ret.
(** api/nabto_device.c 326-365. *)
Definition f_nabto_device_set_private_key : cmd := Lock Core ;; Unlock Core ;; Ret.
(** api/nabto_device.c 367-378. *)
Definition f_nabto_device_set_app_name : cmd := If Ret Skip ;; Lock Core ;; Ext ;; Unlock Core ;; Ret.
(** api/nabto_device.c 380-387. *)
Definition f_nabto_device_get_app_name : cmd := Touch ;; Ret.
(** api/nabto_device.c 389-400. *)
Definition f_nabto_device_set_app_version : cmd := If Ret Skip ;; Lock Core ;; Ext ;; Unlock Core ;; Ret.
(** api/nabto_device.c 402-410. *)
Definition f_nabto_device_disable_remote_access : cmd := Lock Core ;; Ext ;; Unlock Core ;; Ret.
(** api/nabto_device.c 412-419. *)
Definition f_nabto_device_set_basestation_attach : cmd := Lock Core ;; Ext ;; Unlock Core ;; Ret.
(** api/nabto_device.c 421-428. *)
Definition f_nabto_device_get_app_version : cmd := Touch ;; Ret.
(** api/nabto_device.c 430-437. *)
Definition f_nabto_device_set_local_port : cmd := Lock Core ;; Unlock Core ;; Ret.
(** api/nabto_device.c 439-446. *)
Definition f_nabto_device_set_p2p_port : cmd := Lock Core ;; Unlock Core ;; Ret.
(** api/nabto_device.c 448-460. *)
Definition f_nabto_device_get_local_port : cmd := Lock Core ;; Ext ;; Unlock Core ;; If Ret Skip ;; Ret.
(** api/nabto_device.c 462-474. *)
Definition f_nabto_device_get_p2p_port : cmd := Lock Core ;; Ext ;; Unlock Core ;; If Ret Skip ;; Ret.
(** api/nabto_device.c 478-483. *)
Definition f_nabto_device_start_cb : cmd := Call "nabto_device_future_resolve".
(** api/nabto_device.c 488-518. *)
Definition f_nabto_device_start : cmd := Call "nabto_device_future_reset" ;; Lock Core ;; If (Call "nabto_device_future_resolve") (Ext ;; If (Call "nabto_device_future_resolve") (Ext ;; If
  (Call "nabto_device_future_resolve") Skip)) ;; Unlock Core.
(** api/nabto_device.c 535-549. *)
Definition f_nabto_device_get_device_fingerprint : cmd := Lock Core ;; Unlock Core ;; Ret.
(** api/nabto_device.c 551-565. *)
Definition f_nabto_device_get_device_fingerprint_hex : cmd := Lock Core ;; Unlock Core ;; Ret.
(** api/nabto_device.c 567-570. *)
Definition f_nabto_device_get_device_fingerprint_full_hex : cmd := Call "nabto_device_get_device_fingerprint" ;; Ret.
(** api/nabto_device.c 572-592. *)
Definition f_nabto_device_connection_get_client_fingerprint : cmd := Lock Core ;; Ext ;; If Ext Skip ;; Unlock Core ;; Ret.
(** api/nabto_device.c 594-614. *)
Definition f_nabto_device_connection_get_client_fingerprint_hex : cmd := Lock Core ;; Ext ;; If Ext Skip ;; Unlock Core ;; Ret.
(** api/nabto_device.c 616-620. *)
Definition f_nabto_device_connection_get_client_fingerprint_full_hex : cmd := Call "nabto_device_connection_get_client_fingerprint" ;; Ret.
(** api/nabto_device.c 622-635. *)
Definition f_nabto_device_connection_is_local : cmd := Lock Core ;; Ext ;; If Ext Skip ;; Unlock Core ;; Ret.
(** api/nabto_device.c 637-642. *)
Definition f_nabto_device_closed : cmd := Call "nabto_device_future_resolve" ;; Ext.
(** api/nabto_device.c 644-648. *)
Definition f_nabto_device_platform_closed_cb : cmd := Call "nabto_device_closed".
(** api/nabto_device.c 653-661. *)
Definition f_nabto_device_core_closed_cb : cmd := If (Call "nabto_device_closed") (Call "nabto_device_platform_close").
(** api/nabto_device.c 663-682. *)
Definition f_nabto_device_close : cmd := If (Call "nabto_device_future_resolve" ;; Ret) Skip ;; Call "nabto_device_future_reset" ;; Lock Core ;; Ext ;; If (Call
  "nabto_device_future_resolve") Skip ;; Unlock Core.
(** api/nabto_device.c 685-697. *)
Definition f_nabto_device_add_server_connect_token : cmd := If Ret Skip ;; Lock Core ;; Ext ;; Unlock Core ;; Ret.
(** api/nabto_device.c 699-708. *)
Definition f_nabto_device_are_server_connect_tokens_synchronized : cmd := Lock Core ;; Ext ;; Unlock Core ;; Ret.
(** api/nabto_device.c 710-747. *)
Definition f_nabto_device_create_server_connect_token : cmd := Lock Core ;; Loop (If Brk Skip) ;; Unlock Core ;; Ret.
(** api/nabto_device.c 758-769. *)
Definition f_nabto_device_set_root_certs : cmd := Lock Core ;; Ext ;; Unlock Core ;; Ret.
(** api/nabto_device.c 771-781. *)
Definition f_nabto_device_limit_connections : cmd := Lock Core ;; Unlock Core ;; Ret.
(** api/nabto_device.c 783-793. *)
Definition f_nabto_device_limit_streams : cmd := Lock Core ;; Unlock Core ;; Ret.
(** api/nabto_device.c 795-805. *)
Definition f_nabto_device_limit_coap_server_requests : cmd := Lock Core ;; Ext ;; Unlock Core ;; Ret.
(** api/nabto_device_authorization.c 55-61. *)
Definition f_discard_request : cmd := Call "nabto_device_authorization_request_ref_dec".
(** api/nabto_device_authorization.c 63-68. *)
Definition f_handle_verdict : cmd := Ext ;; Call "nabto_device_authorization_request_ref_dec".
(** api/nabto_device_authorization.c 70-95. *)
Definition f_check_access : cmd := If (Call "nabto_device_listener_add_event" ;; If Ret Skip) Skip ;; Call "nabto_device_authorization_do_verdict".
(** api/nabto_device_authorization.c 98-106. *)
Definition f_nabto_device_authorization_do_verdict : cmd := If (Call "post_event") Skip.
(** api/nabto_device_authorization.c 111-126. *)
Definition f_nabto_device_authorization_request_free : cmd := Lock Core ;; If (Call "nabto_device_authorization_do_verdict") Skip ;; Call "nabto_device_authorization_request_ref_dec" ;;
  Unlock Core.
(** api/nabto_device_authorization.c 132-141. *)
Definition f_nabto_device_authorization_request_verdict : cmd := Lock Core ;; Call "nabto_device_authorization_do_verdict" ;; Unlock Core.
(** api/nabto_device_authorization.c 149-154. *)
Definition f_nabto_device_authorization_request_get_action : cmd := Ret.
(** api/nabto_device_authorization.c 159-164. *)
Definition f_nabto_device_authorization_request_get_connection_ref : cmd := Ret.
(** api/nabto_device_authorization.c 229-239. *)
Definition f_nabto_device_authorization_request_get_attributes_size : cmd := Lock Core ;; Unlock Core ;; Ret.
(** api/nabto_device_authorization.c 244-256. *)
Definition f_nabto_device_authorization_request_get_attribute_name : cmd := Lock Core ;; Unlock Core ;; Ret.
(** api/nabto_device_authorization.c 261-276. *)
Definition f_nabto_device_authorization_request_get_attribute_value : cmd := Lock Core ;; Unlock Core ;; Ret.
(** api/nabto_device_authorization.c 303-320. *)
Definition f_nabto_device_authorization_request_ref_dec : cmd := If (Call "destroy_event") Skip.
(** api/nabto_device_authorization_events.c 37-53. *)
Definition f_nabto_device_authorization_listener_callback : cmd := If Skip (If (Call "nabto_device_authorization_do_verdict") Skip) ;; Ret.
(** api/nabto_device_authorization_events.c 55-74. *)
Definition f_nabto_device_authorization_request_init_listener : cmd := Lock Core ;; Unlock Core ;; Ret.
(** api/nabto_device_authorization_events.c 79-111. *)
Definition f_nabto_device_listener_new_authorization_request : cmd := Call "nabto_device_future_reset" ;; Lock Core ;; If (Call "nabto_device_future_resolve") (If (Call
  "nabto_device_future_resolve") (If (Call "nabto_device_future_resolve") (Call "nabto_device_listener_try_resolve"))) ;; Unlock Core ;; Ret.
(** api/nabto_device_coap.c 20-50. *)
Definition f_nabto_device_coap_init_listener : cmd := If Ret Skip ;; Lock Core ;; Ext ;; If Skip (If Ext Skip) ;; Unlock Core ;; Ret.
(** api/nabto_device_coap.c 52-82. *)
Definition f_nabto_device_listener_new_coap_request : cmd := Call "nabto_device_future_reset" ;; Lock Core ;; If (Unlock Core ;; Call "nabto_device_future_resolve" ;; Ret) Skip ;; If (Unlock
  Core ;; Call "nabto_device_future_resolve" ;; Ret) Skip ;; If (Call "nabto_device_future_resolve") (Call "nabto_device_listener_try_resolve") ;; Unlock Core.
(** api/nabto_device_coap.c 84-92. *)
Definition f_nabto_device_coap_request_free : cmd := Lock Core ;; Ext ;; Unlock Core.
(** api/nabto_device_coap.c 95-104. *)
Definition f_nabto_device_coap_error_response : cmd := Lock Core ;; Ext ;; Unlock Core ;; Ret.
(** api/nabto_device_coap.c 106-113. *)
Definition f_nabto_device_coap_response_set_code : cmd := Lock Core ;; Ext ;; Unlock Core ;; Ret.
(** api/nabto_device_coap.c 115-123. *)
Definition f_nabto_device_coap_response_set_payload : cmd := Lock Core ;; Ext ;; Unlock Core ;; Ret.
(** api/nabto_device_coap.c 125-132. *)
Definition f_nabto_device_coap_response_set_content_format : cmd := Lock Core ;; Ext ;; Unlock Core ;; Ret.
(** api/nabto_device_coap.c 134-141. *)
Definition f_nabto_device_coap_response_ready : cmd := Lock Core ;; Ext ;; Unlock Core ;; Ret.
(** api/nabto_device_coap.c 143-155. *)
Definition f_nabto_device_coap_request_get_content_format : cmd := Lock Core ;; Ext ;; Unlock Core ;; If Ret Skip ;; Ret.
(** api/nabto_device_coap.c 157-168. *)
Definition f_nabto_device_coap_request_get_payload : cmd := Lock Core ;; Ext ;; Unlock Core ;; If Ret Skip ;; Ret.
(** api/nabto_device_coap.c 170-174. *)
Definition f_nabto_device_coap_request_get_connection_ref : cmd := Ret.
(** api/nabto_device_coap.c 176-184. *)
Definition f_nabto_device_coap_request_get_parameter : cmd := Lock Core ;; Ext ;; Unlock Core ;; Ret.
(** api/nabto_device_coap.c 203-235. *)
Definition f_nabto_device_coap_listener_callback : cmd := If (If Skip Ext) (If Ext Ext) ;; Ret.
(** api/nabto_device_coap.c 237-260. *)
Definition f_nabto_device_coap_resource_handler : cmd := If (Ext ;; Ext) (Ext ;; Call "nabto_device_listener_add_event" ;; If (Ext ;; Ext) Skip).
(** api/nabto_device_connection_events.c 39-66. *)
Definition f_nabto_device_connection_events_listener_cb : cmd := If Skip (If Ext Skip) ;; Ret.
(** api/nabto_device_connection_events.c 68-82. *)
Definition f_nabto_device_connection_events_core_cb : cmd := If (Call "nabto_device_listener_set_error_code" ;; Ret) Skip ;; Call "nabto_device_listener_add_event".
(** api/nabto_device_connection_events.c 84-104. *)
Definition f_nabto_device_connection_events_init_listener : cmd := If Ret Skip ;; Lock Core ;; If (Unlock Core ;; Ret) Skip ;; Ext ;; Unlock Core ;; Ret.
(** api/nabto_device_connection_events.c 106-135. *)
Definition f_nabto_device_listener_connection_event : cmd := Call "nabto_device_future_reset" ;; Lock Core ;; If (Unlock Core ;; Call "nabto_device_future_resolve" ;; Ret) Skip ;; If (Unlock
  Core ;; Call "nabto_device_future_resolve" ;; Ret) Skip ;; If (Call "nabto_device_future_resolve") (Call "nabto_device_listener_try_resolve") ;; Unlock Core.
(** api/nabto_device_error.c 7-19. *)
Definition f_nabto_device_error_get_message : cmd := Skip.
(** api/nabto_device_error.c 21-29. *)
Definition f_nabto_device_error_get_string : cmd := If (Block Ret) Skip.
(** api/nabto_device_events.c 39-64. *)
Definition f_nabto_device_events_listener_cb : cmd := If Skip (If Ext Skip) ;; Ret.
(** api/nabto_device_events.c 66-79. *)
Definition f_nabto_device_events_core_cb : cmd := If (Call "nabto_device_listener_set_error_code" ;; Ret) Skip ;; Call "nabto_device_listener_add_event".
(** api/nabto_device_events.c 81-101. *)
Definition f_nabto_device_device_events_init_listener : cmd := If Ret Skip ;; Lock Core ;; If (Unlock Core ;; Ret) Skip ;; Ext ;; Unlock Core ;; Ret.
(** api/nabto_device_events.c 103-134. *)
Definition f_nabto_device_listener_device_event : cmd := Call "nabto_device_future_reset" ;; Lock Core ;; If (Unlock Core ;; Call "nabto_device_future_resolve" ;; Ret) Skip ;; If (Unlock
  Core ;; Call "nabto_device_future_resolve" ;; Ret) Skip ;; If (Call "nabto_device_future_resolve") (Call "nabto_device_listener_try_resolve") ;; Unlock Core.
(** api/nabto_device_experimental.c 13-24. *)
Definition f_nabto_device_limit_stream_segments : cmd := Lock Core ;; Ext ;; Unlock Core ;; Ret.
(** api/nabto_device_experimental.c 26-34. *)
Definition f_nabto_device_set_custom_allocator : cmd := Ret.
(** api/nabto_device_experimental.c 36-48. *)
Definition f_nabto_device_get_attach_certificate_expiration : cmd := Lock Core ;; Ext ;; Unlock Core ;; Ret.
(** api/nabto_device_fcm.c 18-27. *)
Definition f_nabto_device_fcm_notification_new : cmd := Ret.
(** api/nabto_device_fcm.c 29-43. *)
Definition f_nabto_device_fcm_notification_free : cmd := If Ret Skip ;; Lock Core ;; Unlock Core.
(** api/nabto_device_fcm.c 45-65. *)
Definition f_nabto_device_fcm_notification_set_project_id : cmd := Lock Core ;; Unlock Core ;; Ret.
(** api/nabto_device_fcm.c 67-87. *)
Definition f_nabto_device_fcm_notification_set_payload : cmd := Lock Core ;; Unlock Core ;; Ret.
(** api/nabto_device_fcm.c 89-93. *)
Definition f_fcm_send_callback : cmd := Call "nabto_device_future_resolve".
(** api/nabto_device_fcm.c 95-115. *)
Definition f_nabto_device_fcm_send : cmd := Lock Core ;; Call "nabto_device_future_reset" ;; If (Call "nabto_device_future_resolve") (Ext ;; If (Call "nabto_device_future_resolve") Skip) ;;
  Unlock Core.
(** api/nabto_device_fcm.c 117-126. *)
Definition f_nabto_device_fcm_stop : cmd := Lock Core ;; Ext ;; Unlock Core.
(** api/nabto_device_fcm.c 128-133. *)
Definition f_nabto_device_fcm_notification_get_response_status_code : cmd := Ret.
(** api/nabto_device_fcm.c 135-140. *)
Definition f_nabto_device_fcm_notification_get_response_body : cmd := Ret.
(** api/nabto_device_future.c 16-48. *)
Definition f_nabto_device_future_new : cmd := If Ret Skip ;; If Ret Skip ;; If Ret Skip ;; Ret.
(** api/nabto_device_future.c 51-64. *)
Definition f_nabto_device_future_free : cmd := If Ret Skip.
(** api/nabto_device_future.c 66-69. *)
Definition f_nabto_device_future_ready : cmd := Call "nabto_device_future_error_code" ;; Ret.
(** api/nabto_device_future.c 71-90. *)
Definition f_nabto_device_future_set_callback : cmd := Lock Fut ;; If (Call "nabto_device_future_queue_post") Skip ;; Unlock Fut ;; Ret.
(** api/nabto_device_future.c 93-105. *)
Definition f_nabto_device_future_wait : cmd := Lock Fut ;; If (Wait Fut) Skip ;; Unlock Fut ;; Ret.
(** api/nabto_device_future.c 107-126. *)
Definition f_nabto_device_future_timed_wait : cmd := Lock Fut ;; If Skip (Wait Fut) ;; Unlock Fut ;; Ret.
(** api/nabto_device_future.c 129-143. *)
Definition f_nabto_device_future_error_code : cmd := Lock Fut ;; Unlock Fut ;; Ret.
(** api/nabto_device_future.c 145-153. *)
Definition f_nabto_device_future_reset : cmd := Lock Fut ;; Unlock Fut.
(** api/nabto_device_future.c 156-165. *)
Definition f_nabto_device_future_popped : cmd := Lock Fut ;; Unlock Fut ;; If User Skip.
(** api/nabto_device_future.c 167-183. *)
Definition f_nabto_device_future_resolve : cmd := Lock Fut ;; If (Call "nabto_device_future_queue_post") Skip ;; Unlock Fut.
(** api/nabto_device_future_queue.c 44-59. *)
Definition f_nabto_device_future_queue_stop : cmd := If Ret Skip ;; Lock FQ ;; If (Unlock FQ ;; Ret) Skip ;; Unlock FQ ;; Join.
(** api/nabto_device_future_queue.c 61-67. *)
Definition f_nabto_device_future_queue_post : cmd := Lock FQ ;; Unlock FQ.
(** api/nabto_device_future_queue.c 69-89. *)
Definition f_execution_thread : cmd := Loop (Lock FQ ;; If (Unlock FQ ;; Call "nabto_device_future_popped") (If (Unlock FQ ;; Ret) (Wait FQ ;; Unlock FQ))) ;; Ret.
(** api/nabto_device_ice_servers.c 18-28. *)
Definition f_nabto_device_ice_servers_request_new : cmd := If Touch Skip ;; Ret.
(** api/nabto_device_ice_servers.c 31-40. *)
Definition f_nabto_device_ice_servers_request_free : cmd := Lock Core ;; Ext ;; Unlock Core.
(** api/nabto_device_ice_servers.c 42-46. *)
Definition f_turn_req_send_callback : cmd := Call "nabto_device_future_resolve".
(** api/nabto_device_ice_servers.c 48-71. *)
Definition f_nabto_device_ice_servers_request_send : cmd := Lock Core ;; Call "nabto_device_future_reset" ;; If (Call "nabto_device_future_resolve") (Ext ;; If (Call
  "nabto_device_future_resolve") Skip) ;; Unlock Core ;; Ret.
(** api/nabto_device_ice_servers.c 73-78. *)
Definition f_nabto_device_ice_servers_request_get_server_count : cmd := Ret.
(** api/nabto_device_ice_servers.c 80-89. *)
Definition f_nabto_device_ice_servers_request_get_username : cmd := If Ret Skip ;; Ret.
(** api/nabto_device_ice_servers.c 91-100. *)
Definition f_nabto_device_ice_servers_request_get_credential : cmd := If Ret Skip ;; Ret.
(** api/nabto_device_ice_servers.c 102-111. *)
Definition f_nabto_device_ice_servers_request_get_urls_count : cmd := If Ret Skip ;; Ret.
(** api/nabto_device_ice_servers.c 114-126. *)
Definition f_nabto_device_ice_servers_request_get_url : cmd := If Ret Skip ;; Ret.
(** api/nabto_device_internal.c 8-16. *)
Definition f_nabto_device_disable_certificate_validation : cmd := Lock Core ;; Ext ;; Unlock Core.
(** api/nabto_device_internal.c 18-27. *)
Definition f_nabto_device_is_attached : cmd := Lock Core ;; Unlock Core ;; Ret.
(** api/nabto_device_listener.c 16-36. *)
Definition f_nabto_device_listener_new : cmd := If Ret Skip ;; Touch ;; Lock Core ;; Unlock Core ;; Ret.
(** api/nabto_device_listener.c 55-67. *)
Definition f_nabto_device_listener_add_event : cmd := If Ret Skip ;; If Ret Skip ;; Touch ;; Call "nabto_device_listener_try_resolve" ;; Ret.
(** api/nabto_device_listener.c 69-82. *)
Definition f_nabto_device_listener_free : cmd := If Ret Skip ;; Lock Core ;; Touch ;; Unlock Core.
(** api/nabto_device_listener.c 113-122. *)
Definition f_nabto_device_listener_stop : cmd := Lock Core ;; Call "nabto_device_listener_stop_internal" ;; Unlock Core ;; Ret.
(** api/nabto_device_listener.c 125-133. *)
Definition f_nabto_device_listener_set_error_code : cmd := If Ret Skip ;; Call "nabto_device_listener_resolve_error_state".
(** api/nabto_device_listener.c 140-151. *)
Definition f_nabto_device_listener_stop_all : cmd := Touch ;; (Loop (Touch ;; (Touch ;; Lock Core ;; Call "nabto_device_listener_stop_internal" ;; Touch ;; Unlock Core)) ;; Touch).
(** api/nabto_device_listener.c 159-169. *)
Definition f_nabto_device_listener_stop_internal : cmd := If Ret Skip ;; If (Call "nabto_device_listener_set_error_code") Skip ;; Ret.
(** api/nabto_device_listener.c 172-191. *)
Definition f_nabto_device_listener_try_resolve : cmd := If Touch Skip ;; If (Touch ;; Touch ;; Touch ;; If Listener Skip ;; Call "nabto_device_future_resolve") Skip.
(** api/nabto_device_listener.c 193-220. *)
Definition f_nabto_device_listener_resolve_error_state : cmd := (Loop (Touch ;; (Touch ;; Touch ;; Touch ;; If Listener Skip)) ;; Touch) ;; If (Call "nabto_device_future_resolve") Skip ;; If
  Listener Skip.
(** api/nabto_device_logging.c 82-98. *)
Definition f_nabto_device_log_severity_as_string : cmd := If (Block Ret) (If (Block (Ret ;; Ret)) (If (Block (Ret ;; Ret ;; Ret)) (If (Block (Ret ;; Ret ;; Ret ;; Ret)) (If (Block (Ret ;;
  Ret ;; Ret ;; Ret ;; Ret)) Skip)))).
(** api/nabto_device_logging.c 101-106. *)
Definition f_nabto_device_set_log_callback : cmd := Ret.
(** api/nabto_device_logging.c 108-125. *)
Definition f_nabto_device_set_log_level : cmd := If Skip (If Skip (If Skip (If Skip Ret))) ;; Ret.
(** api/nabto_device_logging.c 127-136. *)
Definition f_nabto_device_set_log_std_out_callback : cmd := Ret.
(** api/nabto_device_mdns.c 7-15. *)
Definition f_nabto_device_enable_mdns : cmd := Lock Core ;; Ext ;; Unlock Core ;; Ret.
(** api/nabto_device_mdns.c 17-25. *)
Definition f_nabto_device_mdns_add_subtype : cmd := Lock Core ;; Ext ;; Unlock Core ;; Ret.
(** api/nabto_device_mdns.c 27-35. *)
Definition f_nabto_device_mdns_add_txt_item : cmd := Lock Core ;; Ext ;; Unlock Core ;; Ret.
(** api/nabto_device_password_authentication.c 43-60. *)
Definition f_nabto_device_password_authentication_listener_resolve_event : cmd := If Ext (If (Call "nabto_device_password_authentication_request_free_internal") Skip) ;; Ret.
(** api/nabto_device_password_authentication.c 62-75. *)
Definition f_nabto_device_connection_is_password_authenticated : cmd := Lock Core ;; Ext ;; If Ext Skip ;; Unlock Core ;; Ret.
(** api/nabto_device_password_authentication.c 77-99. *)
Definition f_nabto_device_connection_get_password_authentication_username : cmd := Lock Core ;; Ext ;; Unlock Core ;; Ret.
(** api/nabto_device_password_authentication.c 101-122. *)
Definition f_nabto_device_password_authentication_request_init_listener : cmd := Lock Core ;; If Skip (If Ext Skip) ;; Unlock Core ;; Ret.
(** api/nabto_device_password_authentication.c 124-136. *)
Definition f_password_request_handler : cmd := If Ret Skip ;; Call "nabto_device_listener_add_event" ;; Ret.
(** api/nabto_device_password_authentication.c 138-153. *)
Definition f_nabto_device_password_authentication_request_get_username : cmd := Lock Core ;; Unlock Core ;; Ret.
(** api/nabto_device_password_authentication.c 158-174. *)
Definition f_nabto_device_password_authentication_request_set_password : cmd := Lock Core ;; If Skip Ext ;; Unlock Core ;; Ret.
(** api/nabto_device_password_authentication.c 181-188. *)
Definition f_nabto_device_password_authentication_request_free : cmd := Lock Core ;; Call "nabto_device_password_authentication_request_free_internal" ;; Unlock Core.
(** api/nabto_device_password_authentication.c 190-196. *)
Definition f_nabto_device_password_authentication_request_free_internal : cmd := If Ext Skip.
(** api/nabto_device_password_authentication.c 198-230. *)
Definition f_nabto_device_listener_new_password_authentication_request : cmd := Call "nabto_device_future_reset" ;; Lock Core ;; If (Unlock Core ;; Call "nabto_device_future_resolve" ;; Ret)
  Skip ;; If (Unlock Core ;; Call "nabto_device_future_resolve" ;; Ret) Skip ;; If (Call "nabto_device_future_resolve") (Call "nabto_device_listener_try_resolve") ;; Unlock Core.
(** api/nabto_device_service_invocation.c 25-34. *)
Definition f_nabto_device_service_invocation_new : cmd := Ret.
(** api/nabto_device_service_invocation.c 36-50. *)
Definition f_nabto_device_service_invocation_free : cmd := If Ret Skip ;; Lock Core ;; Unlock Core.
(** api/nabto_device_service_invocation.c 52-72. *)
Definition f_nabto_device_service_invocation_set_service_id : cmd := Lock Core ;; Unlock Core ;; Ret.
(** api/nabto_device_service_invocation.c 74-96. *)
Definition f_nabto_device_service_invocation_set_message : cmd := Lock Core ;; Unlock Core ;; Ret.
(** api/nabto_device_service_invocation.c 98-102. *)
Definition f_service_invoke_send_callback : cmd := Call "nabto_device_future_resolve".
(** api/nabto_device_service_invocation.c 104-124. *)
Definition f_nabto_device_service_invocation_execute : cmd := Lock Core ;; Call "nabto_device_future_reset" ;; If (Call "nabto_device_future_resolve") (Ext ;; If (Call
  "nabto_device_future_resolve") Skip) ;; Unlock Core.
(** api/nabto_device_service_invocation.c 126-135. *)
Definition f_nabto_device_service_invocation_stop : cmd := Lock Core ;; Ext ;; Unlock Core.
(** api/nabto_device_service_invocation.c 137-142. *)
Definition f_nabto_device_service_invocation_get_response_status_code : cmd := Ret.
(** api/nabto_device_service_invocation.c 144-149. *)
Definition f_nabto_device_service_invocation_get_response_message_data : cmd := Ret.
(** api/nabto_device_service_invocation.c 151-156. *)
Definition f_nabto_device_service_invocation_get_response_message_size : cmd := Ret.
(** api/nabto_device_service_invocation.c 158-163. *)
Definition f_nabto_device_service_invocation_get_response_message_format : cmd := Ret.
(** api/nabto_device_stream.c 25-48. *)
Definition f_nabto_device_stream_init_listener : cmd := If Ret Skip ;; Lock Core ;; If Ret Skip ;; Ext ;; If Ret Skip ;; Unlock Core ;; Ret.
(** api/nabto_device_stream.c 50-74. *)
Definition f_nabto_device_stream_init_listener_ephemeral : cmd := If Ret Skip ;; Lock Core ;; If Ret Skip ;; Ext ;; If Ret Skip ;; Unlock Core ;; Ret.
(** api/nabto_device_stream.c 76-107. *)
Definition f_nabto_device_listener_new_stream : cmd := Call "nabto_device_future_reset" ;; Lock Core ;; If (Unlock Core ;; Call "nabto_device_future_resolve" ;; Ret) Skip ;; If (Unlock Core
  ;; Call "nabto_device_future_resolve" ;; Ret) Skip ;; If (Call "nabto_device_future_resolve") (Call "nabto_device_listener_try_resolve") ;; Unlock Core.
(** api/nabto_device_stream.c 109-116. *)
Definition f_nabto_device_stream_free : cmd := Lock Core ;; Call "nabto_device_stream_free_internal" ;; Unlock Core.
(** api/nabto_device_stream.c 118-125. *)
Definition f_nabto_device_stream_abort : cmd := Lock Core ;; Ext ;; Unlock Core.
(** api/nabto_device_stream.c 128-134. *)
Definition f_nabto_device_stream_accept_callback : cmd := Call "destroy_event" ;; Call "nabto_device_future_resolve".
(** api/nabto_device_stream.c 136-151. *)
Definition f_nabto_device_stream_accept : cmd := Call "nabto_device_future_reset" ;; Lock Core ;; If (Call "nabto_device_future_resolve") Ext ;; Unlock Core.
(** api/nabto_device_stream.c 153-163. *)
Definition f_nabto_device_stream_get_connection_ref : cmd := Lock Core ;; Unlock Core ;; Ret.
(** api/nabto_device_stream.c 165-176. *)
Definition f_nabto_device_stream_stats_get_bytes_received : cmd := If Ret Skip ;; Lock Core ;; Unlock Core ;; Ret.
(** api/nabto_device_stream.c 178-189. *)
Definition f_nabto_device_stream_stats_get_bytes_sent : cmd := If Ret Skip ;; Lock Core ;; Unlock Core ;; Ret.
(** api/nabto_device_stream.c 191-202. *)
Definition f_nabto_device_stream_stats_get_received_packets : cmd := If Ret Skip ;; Lock Core ;; Unlock Core ;; Ret.
(** api/nabto_device_stream.c 204-215. *)
Definition f_nabto_device_stream_stats_get_sent_packets : cmd := If Ret Skip ;; Lock Core ;; Unlock Core ;; Ret.
(** api/nabto_device_stream.c 217-228. *)
Definition f_nabto_device_stream_stats_get_lost_packets : cmd := If Ret Skip ;; Lock Core ;; Unlock Core ;; Ret.
(** api/nabto_device_stream.c 230-238. *)
Definition f_nabto_device_stream_read_callback : cmd := Call "destroy_event" ;; Call "nabto_device_future_resolve".
(** api/nabto_device_stream.c 240-259. *)
Definition f_nabto_device_stream_read_all : cmd := Call "nabto_device_future_reset" ;; Lock Core ;; If (Call "nabto_device_future_resolve") Ext ;; Unlock Core.
(** api/nabto_device_stream.c 261-280. *)
Definition f_nabto_device_stream_read_some : cmd := Call "nabto_device_future_reset" ;; Lock Core ;; If (Call "nabto_device_future_resolve") Ext ;; Unlock Core.
(** api/nabto_device_stream.c 282-290. *)
Definition f_nabto_device_stream_write_callback : cmd := Call "destroy_event" ;; Call "nabto_device_future_resolve".
(** api/nabto_device_stream.c 292-310. *)
Definition f_nabto_device_stream_write : cmd := Call "nabto_device_future_reset" ;; Lock Core ;; If (Call "nabto_device_future_resolve") Ext ;; Unlock Core.
(** api/nabto_device_stream.c 312-320. *)
Definition f_nabto_device_stream_close_callback : cmd := Call "nabto_device_future_resolve" ;; Call "destroy_event".
(** api/nabto_device_stream.c 322-334. *)
Definition f_nabto_device_stream_close : cmd := Call "nabto_device_future_reset" ;; Lock Core ;; Ext ;; Unlock Core.
(** api/nabto_device_stream.c 336-339. *)
Definition f_nabto_device_stream_free_internal : cmd := Ext.
(** api/nabto_device_stream.c 345-372. *)
Definition f_nabto_device_stream_listener_callback : cmd := If Skip (If Ext (Call "nabto_device_stream_free_internal")) ;; Ret.
(** api/nabto_device_stream.c 376-398. *)
Definition f_nabto_device_stream_core_callback : cmd := If (If (Ext ;; Ret) Skip ;; Call "nabto_device_listener_add_event" ;; If (Call "nabto_device_stream_free_internal") Skip ;; Ret) Skip
  ;; Call "nabto_device_listener_set_error_code".
(** api/nabto_device_tcp_probe.c 23-48. *)
Definition f_nabto_device_tcp_probe_new : cmd := If Ret Skip ;; Lock Core ;; Ext ;; If (Call "probe_free") Skip ;; Unlock Core ;; If Ret Skip ;; Ret.
(** api/nabto_device_tcp_probe.c 53-62. *)
Definition f_nabto_device_tcp_probe_free : cmd := Lock Core ;; Call "probe_free" ;; Unlock Core.
(** api/nabto_device_tcp_probe.c 67-76. *)
Definition f_nabto_device_tcp_probe_stop : cmd := Lock Core ;; Ext ;; Unlock Core.
(** api/nabto_device_tcp_probe.c 83-108. *)
Definition f_nabto_device_tcp_probe_check_reachability : cmd := Lock Core ;; Call "nabto_device_future_reset" ;; If (Call "nabto_device_future_resolve") (If (Call
  "nabto_device_future_resolve") Ext) ;; Unlock Core.
(** api/nabto_device_tcp_probe.c 110-116. *)
Definition f_probe_free : cmd := Call "destroy_event" ;; Ext.
(** api/nabto_device_tcp_probe.c 118-124. *)
Definition f_connect_callback : cmd := Call "nabto_device_future_resolve".
(** api/nabto_device_tcp_tunnelling.c 8-28. *)
Definition f_nabto_device_add_tcp_tunnel_service : cmd := If Ret Skip ;; Lock Core ;; Ext ;; If Skip Ext ;; Unlock Core ;; Ret.
(** api/nabto_device_tcp_tunnelling.c 30-41. *)
Definition f_nabto_device_remove_tcp_tunnel_service : cmd := Lock Core ;; Ext ;; Unlock Core ;; Ret.
(** api/nabto_device_tcp_tunnelling.c 43-55. *)
Definition f_nabto_device_add_tcp_tunnel_service_metadata : cmd := Lock Core ;; Ext ;; Unlock Core ;; Ret.
(** api/nabto_device_tcp_tunnelling.c 57-69. *)
Definition f_nabto_device_remove_tcp_tunnel_service_metadata : cmd := Lock Core ;; Ext ;; Unlock Core ;; Ret.
(** api/nabto_device_tcp_tunnelling.c 71-82. *)
Definition f_nabto_device_limit_tcp_tunnel_connections : cmd := Lock Core ;; Ext ;; Unlock Core ;; Ret.
(** api/nabto_device_util.c 21-24. *)
Definition f_nabto_device_string_free : cmd := Skip.
(** api/nabto_device_util.c 26-41. *)
Definition f_nabto_device_create_private_key : cmd := Lock Core ;; Unlock Core ;; Ret.
(** api/nabto_device_virtual_connection.c 72-94. *)
Definition f_nabto_device_virtual_connection_new : cmd := Lock Core ;; Ext ;; If (Unlock Core ;; Ret) Skip ;; If Skip Ext ;; Unlock Core ;; Ret.
(** api/nabto_device_virtual_connection.c 97-110. *)
Definition f_nabto_device_virtual_connection_free : cmd := If Ret Skip ;; Lock Core ;; Ext ;; Unlock Core.
(** api/nabto_device_virtual_connection.c 113-119. *)
Definition f_nabto_device_virtual_connection_close : cmd := Skip.
(** api/nabto_device_virtual_connection.c 121-139. *)
Definition f_nabto_device_virtual_connection_set_device_fingerprint : cmd := If Ret Skip ;; If Ret Skip ;; Lock Core ;; Ext ;; Unlock Core ;; Ret.
(** api/nabto_device_virtual_connection.c 141-156. *)
Definition f_nabto_device_virtual_connection_set_client_fingerprint : cmd := If Ret Skip ;; Lock Core ;; Ext ;; Unlock Core ;; Ret.
(** api/nabto_device_virtual_connection.c 158-163. *)
Definition f_nabto_device_connection_get_connection_ref : cmd := Ret.
(** api/nabto_device_virtual_connection.c 166-178. *)
Definition f_nabto_device_connection_is_virtual : cmd := Lock Core ;; Ext ;; If Ext Skip ;; Unlock Core ;; Ret.
(** api/nabto_device_virtual_connection.c 181-205. *)
Definition f_nabto_device_connection_get_device_fingerprint : cmd := (Call "nabto_device_connection_is_virtual" ;; If (Lock Core ;; Ext ;; If Ext Skip ;; Unlock Core ;; Ret) Skip) ;; (Call
  "nabto_device_get_device_fingerprint" ;; Ret).
(** api/nabto_device_virtual_connection.c 210-260. *)
Definition f_nabto_device_virtual_coap_request_new : cmd := If Ret Skip ;; If Ret Skip ;; If Ret Skip ;; Ret.
(** api/nabto_device_virtual_connection.c 262-277. *)
Definition f_nabto_device_virtual_coap_request_free : cmd := If (Lock Core ;; Ext ;; Unlock Core) Skip.
(** api/nabto_device_virtual_connection.c 279-292. *)
Definition f_nabto_device_virtual_coap_request_set_payload : cmd := If Ret Skip ;; Ret.
(** api/nabto_device_virtual_connection.c 294-300. *)
Definition f_nabto_device_virtual_coap_request_set_content_format : cmd := Ret.
(** api/nabto_device_virtual_connection.c 302-317. *)
Definition f_nabto_device_virtual_coap_request_execute : cmd := Lock Core ;; Call "nabto_device_future_reset" ;; Ext ;; If (Call "nabto_device_future_resolve") Skip ;; Unlock Core.
(** api/nabto_device_virtual_connection.c 319-334. *)
Definition f_nabto_device_virtual_coap_request_get_response_status_code : cmd := If Ret Skip ;; Lock Core ;; Ext ;; Unlock Core ;; Ret.
(** api/nabto_device_virtual_connection.c 336-354. *)
Definition f_nabto_device_virtual_coap_request_get_response_content_format : cmd := If Ret Skip ;; Lock Core ;; Ext ;; Unlock Core ;; If Ret Skip ;; Ret.
(** api/nabto_device_virtual_connection.c 356-372. *)
Definition f_nabto_device_virtual_coap_request_get_response_payload : cmd := If Ret Skip ;; Lock Core ;; Ext ;; Unlock Core ;; If Ret Skip ;; Ret.
(** api/nabto_device_virtual_connection.c 374-383. *)
Definition f_response_handler : cmd := Call "nabto_device_future_resolve".
(** api/nabto_device_virtual_connection.c 389-402. *)
Definition f_nabto_device_virtual_stream_new : cmd := If Ret Skip ;; Ret.
(** api/nabto_device_virtual_connection.c 406-415. *)
Definition f_nabto_device_virtual_stream_free : cmd := Lock Core ;; Ext ;; Unlock Core.
(** api/nabto_device_virtual_connection.c 418-434. *)
Definition f_nabto_device_virtual_stream_open : cmd := Lock Core ;; Call "nabto_device_future_reset" ;; Ext ;; If (Call "nabto_device_future_resolve") Skip ;; Unlock Core.
(** api/nabto_device_virtual_connection.c 437-459. *)
Definition f_nabto_device_virtual_stream_read_all : cmd := Lock Core ;; Call "nabto_device_future_reset" ;; If (Call "nabto_device_future_resolve" ;; Ret) Skip ;; Ext ;; Unlock Core.
(** api/nabto_device_virtual_connection.c 462-485. *)
Definition f_nabto_device_virtual_stream_read_some : cmd := Lock Core ;; Call "nabto_device_future_reset" ;; If (Call "nabto_device_future_resolve" ;; Unlock Core ;; Ret) Skip ;; Ext ;;
  Unlock Core.
(** api/nabto_device_virtual_connection.c 488-510. *)
Definition f_nabto_device_virtual_stream_write : cmd := Lock Core ;; Call "nabto_device_future_reset" ;; If (Call "nabto_device_future_resolve" ;; Unlock Core ;; Ret) Skip ;; Ext ;; Unlock
  Core.
(** api/nabto_device_virtual_connection.c 512-530. *)
Definition f_nabto_device_virtual_stream_close : cmd := Lock Core ;; Call "nabto_device_future_reset" ;; If (Call "nabto_device_future_resolve" ;; Unlock Core ;; Ret) Skip ;; Ext ;; Unlock
  Core.
(** api/nabto_device_virtual_connection.c 533-541. *)
Definition f_nabto_device_virtual_stream_abort : cmd := Lock Core ;; Ext ;; Unlock Core.
(** api/nabto_device_virtual_connection.c 545-551. *)
Definition f_stream_opened : cmd := Call "destroy_event" ;; Call "nabto_device_future_resolve".
(** api/nabto_device_virtual_connection.c 554-560. *)
Definition f_write_completed : cmd := Call "destroy_event" ;; Call "nabto_device_future_resolve".
(** api/nabto_device_virtual_connection.c 562-568. *)
Definition f_read_completed : cmd := Call "destroy_event" ;; Call "nabto_device_future_resolve".
(** api/nabto_device_virtual_connection.c 570-576. *)
Definition f_close_completed : cmd := Call "destroy_event" ;; Call "nabto_device_future_resolve".
(** modules/event_queue/thread_event_queue.c 59-73. *)
Definition f_thread_event_queue_run : cmd := Lock EvQ ;; If (Unlock EvQ ;; Ret) Skip ;; If (Unlock EvQ ;; Ret) Skip ;; Unlock EvQ ;; Ret.
(** modules/event_queue/thread_event_queue.c 75-85. *)
Definition f_thread_event_queue_deinit : cmd := Lock EvQ ;; Unlock EvQ.
(** modules/event_queue/thread_event_queue.c 87-100. *)
Definition f_thread_event_queue_stop_blocking : cmd := Lock EvQ ;; If Ret Skip ;; Unlock EvQ ;; If Join Skip.
(** modules/event_queue/thread_event_queue.c 114-121. *)
Definition f_destroy_event : cmd := Lock EvQ ;; Unlock EvQ.
(** modules/event_queue/thread_event_queue.c 123-130. *)
Definition f_post_event : cmd := Lock EvQ ;; Unlock EvQ.
(** modules/event_queue/thread_event_queue.c 132-141. *)
Definition f_post_event_maybe_double : cmd := Lock EvQ ;; Unlock EvQ ;; Ret.
(** modules/event_queue/thread_event_queue.c 143-149. *)
Definition f_cancel_event : cmd := Lock EvQ ;; Unlock EvQ.
(** modules/event_queue/thread_event_queue.c 151-161. *)
Definition f_post_timed_event : cmd := Lock EvQ ;; Unlock EvQ.
(** modules/event_queue/thread_event_queue.c 163-184. *)
Definition f_thread_event_queue_do_one : cmd := Lock EvQ ;; Unlock EvQ ;; If (Lock Core ;; Ext ;; Unlock Core ;; Ret) Skip ;; Ret.
(** modules/event_queue/thread_event_queue.c 186-223. *)
Definition f_queue_thread : cmd := Loop (Lock EvQ ;; If Skip (If (Unlock EvQ ;; Ret) (If (Wait EvQ) (Wait EvQ))) ;; Unlock EvQ ;; If (Lock Core ;; Ext ;; Unlock Core) Skip) ;; Ret.
(** The same, when the queue is not stopped. nabto_device_platform_stop_blocking calls it at most once, as it sets and tests platform->stopped before. *)
Definition f_thread_event_queue_stop_blocking_first : cmd := Lock EvQ ;; Unlock EvQ ;; If Join Skip.
(** nabto_device_libevent/nabto_platform_libevent.c 56-156. *)
Definition f_nabto_device_platform_init : cmd := If Ret Skip ;; If Ret Skip ;; If Ret Skip ;; If Ret Skip ;; If Ret Skip ;; If Ret Skip ;; If Ret Skip ;; If Ret Skip ;; Call
  "thread_event_queue_run" ;; Ret.
(** nabto_device_libevent/nabto_platform_libevent.c 158-163. *)
Definition f_nabto_device_platform_close : cmd := Ext.
(** nabto_device_libevent/nabto_platform_libevent.c 165-182. *)
Definition f_nabto_device_platform_deinit : cmd := If Ret Skip ;; Call "thread_event_queue_deinit".
(** nabto_device_libevent/nabto_platform_libevent.c 186-210. *)
Definition f_nabto_device_platform_stop_blocking : cmd := If Ret Skip ;; If Ret Skip ;; Join ;; Call "thread_event_queue_stop_blocking_first" ;; Loop (Call "thread_event_queue_do_one" ;; If
  Brk Skip).

Definition functions : list (string * cmd) :=
  [("nabto_device_version", f_nabto_device_version);
   ("nabto_device_new_resolve_failure", f_nabto_device_new_resolve_failure);
   ("nabto_device_new", f_nabto_device_new);
   ("nabto_device_stop", f_nabto_device_stop);
   ("nabto_device_do_stop", f_nabto_device_do_stop);
   ("nabto_device_free", f_nabto_device_free);
   ("nabto_device_set_product_id", f_nabto_device_set_product_id);
   ("nabto_device_get_product_id", f_nabto_device_get_product_id);
   ("nabto_device_set_device_id", f_nabto_device_set_device_id);
   ("nabto_device_get_device_id", f_nabto_device_get_device_id);
   ("nabto_device_set_server_url", f_nabto_device_set_server_url);
   ("nabto_device_set_server_port", f_nabto_device_set_server_port);
   ("nabto_device_set_private_key", f_nabto_device_set_private_key);
   ("nabto_device_set_app_name", f_nabto_device_set_app_name);
   ("nabto_device_get_app_name", f_nabto_device_get_app_name);
   ("nabto_device_set_app_version", f_nabto_device_set_app_version);
   ("nabto_device_disable_remote_access", f_nabto_device_disable_remote_access);
   ("nabto_device_set_basestation_attach", f_nabto_device_set_basestation_attach);
   ("nabto_device_get_app_version", f_nabto_device_get_app_version);
   ("nabto_device_set_local_port", f_nabto_device_set_local_port);
   ("nabto_device_set_p2p_port", f_nabto_device_set_p2p_port);
   ("nabto_device_get_local_port", f_nabto_device_get_local_port);
   ("nabto_device_get_p2p_port", f_nabto_device_get_p2p_port);
   ("nabto_device_start_cb", f_nabto_device_start_cb);
   ("nabto_device_start", f_nabto_device_start);
   ("nabto_device_get_device_fingerprint", f_nabto_device_get_device_fingerprint);
   ("nabto_device_get_device_fingerprint_hex", f_nabto_device_get_device_fingerprint_hex);
   ("nabto_device_get_device_fingerprint_full_hex", f_nabto_device_get_device_fingerprint_full_hex);
   ("nabto_device_connection_get_client_fingerprint", f_nabto_device_connection_get_client_fingerprint);
   ("nabto_device_connection_get_client_fingerprint_hex", f_nabto_device_connection_get_client_fingerprint_hex);
   ("nabto_device_connection_get_client_fingerprint_full_hex", f_nabto_device_connection_get_client_fingerprint_full_hex);
   ("nabto_device_connection_is_local", f_nabto_device_connection_is_local);
   ("nabto_device_closed", f_nabto_device_closed);
   ("nabto_device_platform_closed_cb", f_nabto_device_platform_closed_cb);
   ("nabto_device_core_closed_cb", f_nabto_device_core_closed_cb);
   ("nabto_device_close", f_nabto_device_close);
   ("nabto_device_add_server_connect_token", f_nabto_device_add_server_connect_token);
   ("nabto_device_are_server_connect_tokens_synchronized", f_nabto_device_are_server_connect_tokens_synchronized);
   ("nabto_device_create_server_connect_token", f_nabto_device_create_server_connect_token);
   ("nabto_device_set_root_certs", f_nabto_device_set_root_certs);
   ("nabto_device_limit_connections", f_nabto_device_limit_connections);
   ("nabto_device_limit_streams", f_nabto_device_limit_streams);
   ("nabto_device_limit_coap_server_requests", f_nabto_device_limit_coap_server_requests);
   ("discard_request", f_discard_request);
   ("handle_verdict", f_handle_verdict);
   ("check_access", f_check_access);
   ("nabto_device_authorization_do_verdict", f_nabto_device_authorization_do_verdict);
   ("nabto_device_authorization_request_free", f_nabto_device_authorization_request_free);
   ("nabto_device_authorization_request_verdict", f_nabto_device_authorization_request_verdict);
   ("nabto_device_authorization_request_get_action", f_nabto_device_authorization_request_get_action);
   ("nabto_device_authorization_request_get_connection_ref", f_nabto_device_authorization_request_get_connection_ref);
   ("nabto_device_authorization_request_get_attributes_size", f_nabto_device_authorization_request_get_attributes_size);
   ("nabto_device_authorization_request_get_attribute_name", f_nabto_device_authorization_request_get_attribute_name);
   ("nabto_device_authorization_request_get_attribute_value", f_nabto_device_authorization_request_get_attribute_value);
   ("nabto_device_authorization_request_ref_dec", f_nabto_device_authorization_request_ref_dec);
   ("nabto_device_authorization_listener_callback", f_nabto_device_authorization_listener_callback);
   ("nabto_device_authorization_request_init_listener", f_nabto_device_authorization_request_init_listener);
   ("nabto_device_listener_new_authorization_request", f_nabto_device_listener_new_authorization_request);
   ("nabto_device_coap_init_listener", f_nabto_device_coap_init_listener);
   ("nabto_device_listener_new_coap_request", f_nabto_device_listener_new_coap_request);
   ("nabto_device_coap_request_free", f_nabto_device_coap_request_free);
   ("nabto_device_coap_error_response", f_nabto_device_coap_error_response);
   ("nabto_device_coap_response_set_code", f_nabto_device_coap_response_set_code);
   ("nabto_device_coap_response_set_payload", f_nabto_device_coap_response_set_payload);
   ("nabto_device_coap_response_set_content_format", f_nabto_device_coap_response_set_content_format);
   ("nabto_device_coap_response_ready", f_nabto_device_coap_response_ready);
   ("nabto_device_coap_request_get_content_format", f_nabto_device_coap_request_get_content_format);
   ("nabto_device_coap_request_get_payload", f_nabto_device_coap_request_get_payload);
   ("nabto_device_coap_request_get_connection_ref", f_nabto_device_coap_request_get_connection_ref);
   ("nabto_device_coap_request_get_parameter", f_nabto_device_coap_request_get_parameter);
   ("nabto_device_coap_listener_callback", f_nabto_device_coap_listener_callback);
   ("nabto_device_coap_resource_handler", f_nabto_device_coap_resource_handler);
   ("nabto_device_connection_events_listener_cb", f_nabto_device_connection_events_listener_cb);
   ("nabto_device_connection_events_core_cb", f_nabto_device_connection_events_core_cb);
   ("nabto_device_connection_events_init_listener", f_nabto_device_connection_events_init_listener);
   ("nabto_device_listener_connection_event", f_nabto_device_listener_connection_event);
   ("nabto_device_error_get_message", f_nabto_device_error_get_message);
   ("nabto_device_error_get_string", f_nabto_device_error_get_string);
   ("nabto_device_events_listener_cb", f_nabto_device_events_listener_cb);
   ("nabto_device_events_core_cb", f_nabto_device_events_core_cb);
   ("nabto_device_device_events_init_listener", f_nabto_device_device_events_init_listener);
   ("nabto_device_listener_device_event", f_nabto_device_listener_device_event);
   ("nabto_device_limit_stream_segments", f_nabto_device_limit_stream_segments);
   ("nabto_device_set_custom_allocator", f_nabto_device_set_custom_allocator);
   ("nabto_device_get_attach_certificate_expiration", f_nabto_device_get_attach_certificate_expiration);
   ("nabto_device_fcm_notification_new", f_nabto_device_fcm_notification_new);
   ("nabto_device_fcm_notification_free", f_nabto_device_fcm_notification_free);
   ("nabto_device_fcm_notification_set_project_id", f_nabto_device_fcm_notification_set_project_id);
   ("nabto_device_fcm_notification_set_payload", f_nabto_device_fcm_notification_set_payload);
   ("fcm_send_callback", f_fcm_send_callback);
   ("nabto_device_fcm_send", f_nabto_device_fcm_send);
   ("nabto_device_fcm_stop", f_nabto_device_fcm_stop);
   ("nabto_device_fcm_notification_get_response_status_code", f_nabto_device_fcm_notification_get_response_status_code);
   ("nabto_device_fcm_notification_get_response_body", f_nabto_device_fcm_notification_get_response_body);
   ("nabto_device_future_new", f_nabto_device_future_new);
   ("nabto_device_future_free", f_nabto_device_future_free);
   ("nabto_device_future_ready", f_nabto_device_future_ready);
   ("nabto_device_future_set_callback", f_nabto_device_future_set_callback);
   ("nabto_device_future_wait", f_nabto_device_future_wait);
   ("nabto_device_future_timed_wait", f_nabto_device_future_timed_wait);
   ("nabto_device_future_error_code", f_nabto_device_future_error_code);
   ("nabto_device_future_reset", f_nabto_device_future_reset);
   ("nabto_device_future_popped", f_nabto_device_future_popped);
   ("nabto_device_future_resolve", f_nabto_device_future_resolve);
   ("nabto_device_future_queue_stop", f_nabto_device_future_queue_stop);
   ("nabto_device_future_queue_post", f_nabto_device_future_queue_post);
   ("execution_thread", f_execution_thread);
   ("nabto_device_ice_servers_request_new", f_nabto_device_ice_servers_request_new);
   ("nabto_device_ice_servers_request_free", f_nabto_device_ice_servers_request_free);
   ("turn_req_send_callback", f_turn_req_send_callback);
   ("nabto_device_ice_servers_request_send", f_nabto_device_ice_servers_request_send);
   ("nabto_device_ice_servers_request_get_server_count", f_nabto_device_ice_servers_request_get_server_count);
   ("nabto_device_ice_servers_request_get_username", f_nabto_device_ice_servers_request_get_username);
   ("nabto_device_ice_servers_request_get_credential", f_nabto_device_ice_servers_request_get_credential);
   ("nabto_device_ice_servers_request_get_urls_count", f_nabto_device_ice_servers_request_get_urls_count);
   ("nabto_device_ice_servers_request_get_url", f_nabto_device_ice_servers_request_get_url);
   ("nabto_device_disable_certificate_validation", f_nabto_device_disable_certificate_validation);
   ("nabto_device_is_attached", f_nabto_device_is_attached);
   ("nabto_device_listener_new", f_nabto_device_listener_new);
   ("nabto_device_listener_add_event", f_nabto_device_listener_add_event);
   ("nabto_device_listener_free", f_nabto_device_listener_free);
   ("nabto_device_listener_stop", f_nabto_device_listener_stop);
   ("nabto_device_listener_set_error_code", f_nabto_device_listener_set_error_code);
   ("nabto_device_listener_stop_all", f_nabto_device_listener_stop_all);
   ("nabto_device_listener_stop_internal", f_nabto_device_listener_stop_internal);
   ("nabto_device_listener_try_resolve", f_nabto_device_listener_try_resolve);
   ("nabto_device_listener_resolve_error_state", f_nabto_device_listener_resolve_error_state);
   ("nabto_device_log_severity_as_string", f_nabto_device_log_severity_as_string);
   ("nabto_device_set_log_callback", f_nabto_device_set_log_callback);
   ("nabto_device_set_log_level", f_nabto_device_set_log_level);
   ("nabto_device_set_log_std_out_callback", f_nabto_device_set_log_std_out_callback);
   ("nabto_device_enable_mdns", f_nabto_device_enable_mdns);
   ("nabto_device_mdns_add_subtype", f_nabto_device_mdns_add_subtype);
   ("nabto_device_mdns_add_txt_item", f_nabto_device_mdns_add_txt_item);
   ("nabto_device_password_authentication_listener_resolve_event", f_nabto_device_password_authentication_listener_resolve_event);
   ("nabto_device_connection_is_password_authenticated", f_nabto_device_connection_is_password_authenticated);
   ("nabto_device_connection_get_password_authentication_username", f_nabto_device_connection_get_password_authentication_username);
   ("nabto_device_password_authentication_request_init_listener", f_nabto_device_password_authentication_request_init_listener);
   ("password_request_handler", f_password_request_handler);
   ("nabto_device_password_authentication_request_get_username", f_nabto_device_password_authentication_request_get_username);
   ("nabto_device_password_authentication_request_set_password", f_nabto_device_password_authentication_request_set_password);
   ("nabto_device_password_authentication_request_free", f_nabto_device_password_authentication_request_free);
   ("nabto_device_password_authentication_request_free_internal", f_nabto_device_password_authentication_request_free_internal);
   ("nabto_device_listener_new_password_authentication_request", f_nabto_device_listener_new_password_authentication_request);
   ("nabto_device_service_invocation_new", f_nabto_device_service_invocation_new);
   ("nabto_device_service_invocation_free", f_nabto_device_service_invocation_free);
   ("nabto_device_service_invocation_set_service_id", f_nabto_device_service_invocation_set_service_id);
   ("nabto_device_service_invocation_set_message", f_nabto_device_service_invocation_set_message);
   ("service_invoke_send_callback", f_service_invoke_send_callback);
   ("nabto_device_service_invocation_execute", f_nabto_device_service_invocation_execute);
   ("nabto_device_service_invocation_stop", f_nabto_device_service_invocation_stop);
   ("nabto_device_service_invocation_get_response_status_code", f_nabto_device_service_invocation_get_response_status_code);
   ("nabto_device_service_invocation_get_response_message_data", f_nabto_device_service_invocation_get_response_message_data);
   ("nabto_device_service_invocation_get_response_message_size", f_nabto_device_service_invocation_get_response_message_size);
   ("nabto_device_service_invocation_get_response_message_format", f_nabto_device_service_invocation_get_response_message_format);
   ("nabto_device_stream_init_listener", f_nabto_device_stream_init_listener);
   ("nabto_device_stream_init_listener_ephemeral", f_nabto_device_stream_init_listener_ephemeral);
   ("nabto_device_listener_new_stream", f_nabto_device_listener_new_stream);
   ("nabto_device_stream_free", f_nabto_device_stream_free);
   ("nabto_device_stream_abort", f_nabto_device_stream_abort);
   ("nabto_device_stream_accept_callback", f_nabto_device_stream_accept_callback);
   ("nabto_device_stream_accept", f_nabto_device_stream_accept);
   ("nabto_device_stream_get_connection_ref", f_nabto_device_stream_get_connection_ref);
   ("nabto_device_stream_stats_get_bytes_received", f_nabto_device_stream_stats_get_bytes_received);
   ("nabto_device_stream_stats_get_bytes_sent", f_nabto_device_stream_stats_get_bytes_sent);
   ("nabto_device_stream_stats_get_received_packets", f_nabto_device_stream_stats_get_received_packets);
   ("nabto_device_stream_stats_get_sent_packets", f_nabto_device_stream_stats_get_sent_packets);
   ("nabto_device_stream_stats_get_lost_packets", f_nabto_device_stream_stats_get_lost_packets);
   ("nabto_device_stream_read_callback", f_nabto_device_stream_read_callback);
   ("nabto_device_stream_read_all", f_nabto_device_stream_read_all);
   ("nabto_device_stream_read_some", f_nabto_device_stream_read_some);
   ("nabto_device_stream_write_callback", f_nabto_device_stream_write_callback);
   ("nabto_device_stream_write", f_nabto_device_stream_write);
   ("nabto_device_stream_close_callback", f_nabto_device_stream_close_callback);
   ("nabto_device_stream_close", f_nabto_device_stream_close);
   ("nabto_device_stream_free_internal", f_nabto_device_stream_free_internal);
   ("nabto_device_stream_listener_callback", f_nabto_device_stream_listener_callback);
   ("nabto_device_stream_core_callback", f_nabto_device_stream_core_callback);
   ("nabto_device_tcp_probe_new", f_nabto_device_tcp_probe_new);
   ("nabto_device_tcp_probe_free", f_nabto_device_tcp_probe_free);
   ("nabto_device_tcp_probe_stop", f_nabto_device_tcp_probe_stop);
   ("nabto_device_tcp_probe_check_reachability", f_nabto_device_tcp_probe_check_reachability);
   ("probe_free", f_probe_free);
   ("connect_callback", f_connect_callback);
   ("nabto_device_add_tcp_tunnel_service", f_nabto_device_add_tcp_tunnel_service);
   ("nabto_device_remove_tcp_tunnel_service", f_nabto_device_remove_tcp_tunnel_service);
   ("nabto_device_add_tcp_tunnel_service_metadata", f_nabto_device_add_tcp_tunnel_service_metadata);
   ("nabto_device_remove_tcp_tunnel_service_metadata", f_nabto_device_remove_tcp_tunnel_service_metadata);
   ("nabto_device_limit_tcp_tunnel_connections", f_nabto_device_limit_tcp_tunnel_connections);
   ("nabto_device_string_free", f_nabto_device_string_free);
   ("nabto_device_create_private_key", f_nabto_device_create_private_key);
   ("nabto_device_virtual_connection_new", f_nabto_device_virtual_connection_new);
   ("nabto_device_virtual_connection_free", f_nabto_device_virtual_connection_free);
   ("nabto_device_virtual_connection_close", f_nabto_device_virtual_connection_close);
   ("nabto_device_virtual_connection_set_device_fingerprint", f_nabto_device_virtual_connection_set_device_fingerprint);
   ("nabto_device_virtual_connection_set_client_fingerprint", f_nabto_device_virtual_connection_set_client_fingerprint);
   ("nabto_device_connection_get_connection_ref", f_nabto_device_connection_get_connection_ref);
   ("nabto_device_connection_is_virtual", f_nabto_device_connection_is_virtual);
   ("nabto_device_connection_get_device_fingerprint", f_nabto_device_connection_get_device_fingerprint);
   ("nabto_device_virtual_coap_request_new", f_nabto_device_virtual_coap_request_new);
   ("nabto_device_virtual_coap_request_free", f_nabto_device_virtual_coap_request_free);
   ("nabto_device_virtual_coap_request_set_payload", f_nabto_device_virtual_coap_request_set_payload);
   ("nabto_device_virtual_coap_request_set_content_format", f_nabto_device_virtual_coap_request_set_content_format);
   ("nabto_device_virtual_coap_request_execute", f_nabto_device_virtual_coap_request_execute);
   ("nabto_device_virtual_coap_request_get_response_status_code", f_nabto_device_virtual_coap_request_get_response_status_code);
   ("nabto_device_virtual_coap_request_get_response_content_format", f_nabto_device_virtual_coap_request_get_response_content_format);
   ("nabto_device_virtual_coap_request_get_response_payload", f_nabto_device_virtual_coap_request_get_response_payload);
   ("response_handler", f_response_handler);
   ("nabto_device_virtual_stream_new", f_nabto_device_virtual_stream_new);
   ("nabto_device_virtual_stream_free", f_nabto_device_virtual_stream_free);
   ("nabto_device_virtual_stream_open", f_nabto_device_virtual_stream_open);
   ("nabto_device_virtual_stream_read_all", f_nabto_device_virtual_stream_read_all);
   ("nabto_device_virtual_stream_read_some", f_nabto_device_virtual_stream_read_some);
   ("nabto_device_virtual_stream_write", f_nabto_device_virtual_stream_write);
   ("nabto_device_virtual_stream_close", f_nabto_device_virtual_stream_close);
   ("nabto_device_virtual_stream_abort", f_nabto_device_virtual_stream_abort);
   ("stream_opened", f_stream_opened);
   ("write_completed", f_write_completed);
   ("read_completed", f_read_completed);
   ("close_completed", f_close_completed);
   ("thread_event_queue_run", f_thread_event_queue_run);
   ("thread_event_queue_deinit", f_thread_event_queue_deinit);
   ("thread_event_queue_stop_blocking", f_thread_event_queue_stop_blocking);
   ("destroy_event", f_destroy_event);
   ("post_event", f_post_event);
   ("post_event_maybe_double", f_post_event_maybe_double);
   ("cancel_event", f_cancel_event);
   ("post_timed_event", f_post_timed_event);
   ("thread_event_queue_do_one", f_thread_event_queue_do_one);
   ("queue_thread", f_queue_thread);
   ("thread_event_queue_stop_blocking_first", f_thread_event_queue_stop_blocking_first);
   ("nabto_device_platform_init", f_nabto_device_platform_init);
   ("nabto_device_platform_close", f_nabto_device_platform_close);
   ("nabto_device_platform_deinit", f_nabto_device_platform_deinit);
   ("nabto_device_platform_stop_blocking", f_nabto_device_platform_stop_blocking)].
(** The functions of the API (NABTO_DEVICE_API). *)
Definition api_functions : list string :=
  ["nabto_device_version"; "nabto_device_new"; "nabto_device_stop"; "nabto_device_free"; "nabto_device_set_product_id"; "nabto_device_get_product_id"; "nabto_device_set_device_id";
  "nabto_device_get_device_id"; "nabto_device_set_server_url"; "nabto_device_set_server_port"; "nabto_device_set_private_key"; "nabto_device_set_app_name"; "nabto_device_get_app_name";
  "nabto_device_set_app_version"; "nabto_device_disable_remote_access"; "nabto_device_set_basestation_attach"; "nabto_device_get_app_version"; "nabto_device_set_local_port";
  "nabto_device_set_p2p_port"; "nabto_device_get_local_port"; "nabto_device_get_p2p_port"; "nabto_device_start"; "nabto_device_get_device_fingerprint";
  "nabto_device_get_device_fingerprint_hex"; "nabto_device_get_device_fingerprint_full_hex"; "nabto_device_connection_get_client_fingerprint";
  "nabto_device_connection_get_client_fingerprint_hex"; "nabto_device_connection_get_client_fingerprint_full_hex"; "nabto_device_connection_is_local"; "nabto_device_close";
  "nabto_device_add_server_connect_token"; "nabto_device_are_server_connect_tokens_synchronized"; "nabto_device_create_server_connect_token"; "nabto_device_set_root_certs";
  "nabto_device_limit_connections"; "nabto_device_limit_streams"; "nabto_device_limit_coap_server_requests"; "nabto_device_authorization_request_free";
  "nabto_device_authorization_request_verdict"; "nabto_device_authorization_request_get_action"; "nabto_device_authorization_request_get_connection_ref";
  "nabto_device_authorization_request_get_attributes_size"; "nabto_device_authorization_request_get_attribute_name"; "nabto_device_authorization_request_get_attribute_value";
  "nabto_device_authorization_request_init_listener"; "nabto_device_listener_new_authorization_request"; "nabto_device_coap_init_listener"; "nabto_device_listener_new_coap_request";
  "nabto_device_coap_request_free"; "nabto_device_coap_error_response"; "nabto_device_coap_response_set_code"; "nabto_device_coap_response_set_payload";
  "nabto_device_coap_response_set_content_format"; "nabto_device_coap_response_ready"; "nabto_device_coap_request_get_content_format"; "nabto_device_coap_request_get_payload";
  "nabto_device_coap_request_get_connection_ref"; "nabto_device_coap_request_get_parameter"; "nabto_device_connection_events_init_listener"; "nabto_device_listener_connection_event";
  "nabto_device_error_get_message"; "nabto_device_error_get_string"; "nabto_device_device_events_init_listener"; "nabto_device_listener_device_event"; "nabto_device_limit_stream_segments";
  "nabto_device_set_custom_allocator"; "nabto_device_get_attach_certificate_expiration"; "nabto_device_fcm_notification_new"; "nabto_device_fcm_notification_free";
  "nabto_device_fcm_notification_set_project_id"; "nabto_device_fcm_notification_set_payload"; "nabto_device_fcm_send"; "nabto_device_fcm_stop";
  "nabto_device_fcm_notification_get_response_status_code"; "nabto_device_fcm_notification_get_response_body"; "nabto_device_future_new"; "nabto_device_future_free";
  "nabto_device_future_ready"; "nabto_device_future_set_callback"; "nabto_device_future_wait"; "nabto_device_future_timed_wait"; "nabto_device_future_error_code";
  "nabto_device_ice_servers_request_new"; "nabto_device_ice_servers_request_free"; "nabto_device_ice_servers_request_send"; "nabto_device_ice_servers_request_get_server_count";
  "nabto_device_ice_servers_request_get_username"; "nabto_device_ice_servers_request_get_credential"; "nabto_device_ice_servers_request_get_urls_count";
  "nabto_device_ice_servers_request_get_url"; "nabto_device_disable_certificate_validation"; "nabto_device_is_attached"; "nabto_device_listener_new"; "nabto_device_listener_free";
  "nabto_device_listener_stop"; "nabto_device_log_severity_as_string"; "nabto_device_set_log_callback"; "nabto_device_set_log_level"; "nabto_device_set_log_std_out_callback";
  "nabto_device_enable_mdns"; "nabto_device_mdns_add_subtype"; "nabto_device_mdns_add_txt_item"; "nabto_device_connection_is_password_authenticated";
  "nabto_device_connection_get_password_authentication_username"; "nabto_device_password_authentication_request_init_listener"; "nabto_device_password_authentication_request_get_username";
  "nabto_device_password_authentication_request_set_password"; "nabto_device_password_authentication_request_free"; "nabto_device_listener_new_password_authentication_request";
  "nabto_device_service_invocation_new"; "nabto_device_service_invocation_free"; "nabto_device_service_invocation_set_service_id"; "nabto_device_service_invocation_set_message";
  "nabto_device_service_invocation_execute"; "nabto_device_service_invocation_stop"; "nabto_device_service_invocation_get_response_status_code";
  "nabto_device_service_invocation_get_response_message_data"; "nabto_device_service_invocation_get_response_message_size"; "nabto_device_service_invocation_get_response_message_format";
  "nabto_device_stream_init_listener"; "nabto_device_stream_init_listener_ephemeral"; "nabto_device_listener_new_stream"; "nabto_device_stream_free"; "nabto_device_stream_abort";
  "nabto_device_stream_accept"; "nabto_device_stream_get_connection_ref"; "nabto_device_stream_stats_get_bytes_received"; "nabto_device_stream_stats_get_bytes_sent";
  "nabto_device_stream_stats_get_received_packets"; "nabto_device_stream_stats_get_sent_packets"; "nabto_device_stream_stats_get_lost_packets"; "nabto_device_stream_read_all";
  "nabto_device_stream_read_some"; "nabto_device_stream_write"; "nabto_device_stream_close"; "nabto_device_tcp_probe_new"; "nabto_device_tcp_probe_free"; "nabto_device_tcp_probe_stop";
  "nabto_device_add_tcp_tunnel_service"; "nabto_device_remove_tcp_tunnel_service"; "nabto_device_add_tcp_tunnel_service_metadata"; "nabto_device_remove_tcp_tunnel_service_metadata";
  "nabto_device_limit_tcp_tunnel_connections"; "nabto_device_string_free"; "nabto_device_create_private_key"; "nabto_device_virtual_connection_new"; "nabto_device_virtual_connection_free";
  "nabto_device_virtual_connection_close"; "nabto_device_virtual_connection_set_device_fingerprint"; "nabto_device_virtual_connection_set_client_fingerprint";
  "nabto_device_connection_get_connection_ref"; "nabto_device_connection_is_virtual"; "nabto_device_connection_get_device_fingerprint"; "nabto_device_virtual_coap_request_new";
  "nabto_device_virtual_coap_request_free"; "nabto_device_virtual_coap_request_set_payload"; "nabto_device_virtual_coap_request_set_content_format";
  "nabto_device_virtual_coap_request_execute"; "nabto_device_virtual_coap_request_get_response_status_code"; "nabto_device_virtual_coap_request_get_response_content_format";
  "nabto_device_virtual_coap_request_get_response_payload"; "nabto_device_virtual_stream_new"; "nabto_device_virtual_stream_free"; "nabto_device_virtual_stream_open";
  "nabto_device_virtual_stream_read_all"; "nabto_device_virtual_stream_read_some"; "nabto_device_virtual_stream_write"; "nabto_device_virtual_stream_close";
  "nabto_device_virtual_stream_abort"].
(** The functions whose address the API gives to the core or to the event queue, and the functions of the event queue. They are called with the lock of the device. *)
Definition core_callbacks : list string :=
  ["check_access"; "close_completed"; "connect_callback"; "discard_request"; "fcm_send_callback"; "handle_verdict"; "nabto_device_authorization_listener_callback";
  "nabto_device_coap_listener_callback"; "nabto_device_coap_resource_handler"; "nabto_device_connection_events_core_cb"; "nabto_device_connection_events_listener_cb";
  "nabto_device_core_closed_cb"; "nabto_device_events_core_cb"; "nabto_device_events_listener_cb"; "nabto_device_password_authentication_listener_resolve_event";
  "nabto_device_platform_closed_cb"; "nabto_device_start_cb"; "nabto_device_stream_accept_callback"; "nabto_device_stream_close_callback"; "nabto_device_stream_core_callback";
  "nabto_device_stream_listener_callback"; "nabto_device_stream_read_callback"; "nabto_device_stream_write_callback"; "password_request_handler"; "read_completed"; "response_handler";
  "service_invoke_send_callback"; "stream_opened"; "turn_req_send_callback"; "write_completed"; "destroy_event"; "post_event"; "post_event_maybe_double"; "cancel_event"; "post_timed_event"].
(** The arguments of nabto_device_listener_init. *)
Definition listener_callbacks : list string :=
  ["nabto_device_authorization_listener_callback"; "nabto_device_coap_listener_callback"; "nabto_device_connection_events_listener_cb"; "nabto_device_events_listener_cb";
  "nabto_device_password_authentication_listener_resolve_event"; "nabto_device_stream_listener_callback"].
(** The functions which threads run. *)
Definition threads : list string :=
  ["execution_thread"; "queue_thread"].
