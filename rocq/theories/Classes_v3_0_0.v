(** * Object tables of OpenAPI 3.0.0, transcribed from pyopenapi/migration/versions/v3_0_0/objects.py. *)
From Coq Require Import String List.
From Verif Require Import PyVal Obj.
Import ListNotations.
Open Scope string_scope.

(** class Reference -- pyopenapi/migration/versions/v3_0_0/objects.py:14-19 *)
Definition v30_Reference : classdef := mk_class
  [mk_field "$ref" true JNull false false]
  []
  []
  [("ref", "$ref")]
  [].

(** class Contact -- pyopenapi/migration/versions/v3_0_0/objects.py:60-65 *)
Definition v30_Contact : classdef := mk_class
  [fld "name"; fld "url"; fld "email"]
  []
  []
  []
  [].

(** class License -- pyopenapi/migration/versions/v3_0_0/objects.py:68-72 *)
Definition v30_License : classdef := mk_class
  [mk_field "name" true JNull false true; fld "url"]
  []
  []
  []
  [].

(** class Info -- pyopenapi/migration/versions/v3_0_0/objects.py:75-90 *)
Definition v30_Info : classdef := mk_class
  [mk_field "title" true JNull false true; fld "description"; fld "termsOfService"; mk_field "version" true JNull false true]
  [mk_child "contact" (BCls "Contact") false; mk_child "license" (BCls "License") false]
  []
  [("terms_of_service", "termsOfService")]
  [].

(** class ServerVariable -- pyopenapi/migration/versions/v3_0_0/objects.py:93-103 *)
Definition v30_ServerVariable : classdef := mk_class
  [mk_field "default" true JNull false true; fld "description"]
  [mk_child "enum" (BListOf BStr) false]
  []
  [("enum_", "enum")]
  [].

(** class Server -- pyopenapi/migration/versions/v3_0_0/objects.py:106-114 *)
Definition v30_Server : classdef := mk_class
  [mk_field "url" true JNull false true; fld "description"]
  [mk_child "variables" (BMapOf (BCls "ServerVariable")) false]
  []
  []
  [].

(** class Example -- pyopenapi/migration/versions/v3_0_0/objects.py:117-127 *)
Definition v30_Example : classdef := mk_class
  [fld "summary"; fld "description"; fld "value"; fld "externalValue"]
  []
  []
  [("external_value", "externalValue")]
  [].

(** class XML_ -- pyopenapi/migration/versions/v3_0_0/objects.py:133-140 *)
Definition v30_XML : classdef := mk_class
  [fld "name"; fld "namespace"; fld "prefix"; fld "attribute"; fld "wrapped"]
  []
  []
  []
  [].

(** class ExternalDocumentation -- pyopenapi/migration/versions/v3_0_0/objects.py:143-147 *)
Definition v30_ExternalDocumentation : classdef := mk_class
  [fld "description"; mk_field "url" true JNull false true]
  []
  []
  []
  [].

(** class Discriminator -- pyopenapi/migration/versions/v3_0_0/objects.py:150-161 *)
Definition v30_Discriminator : classdef := mk_class
  [fld "propertyName"]
  [mk_child "mapping" (BMapOf BStr) false]
  []
  [("property_name", "propertyName")]
  [].

(** class Schema -- pyopenapi/migration/versions/v3_0_0/objects.py:164-223; attached at 229, 231, 233, 235, 236, 237, 239 *)
Definition v30_Schema : classdef := mk_class
  [fld "title"; fld "multipleOf"; fld "maximum"; fld "exclusiveMaximum"; fld "minimum"; fld "exclusiveMinimum"; fld "maxLength"; fld "minLength"; fld "pattern"; fld "maxItems"; fld "minItems"; fld "uniqueItems"; fld "maxProperties"; fld "minProperties"; fld "required"; fld "enum"; fld "type"; fld "description"; fld "format"; fld "default"; fld "nullable"; fld "readOnly"; fld "writeOnly"; fld "example"; fld "depreated"]
  [mk_child "discriminator" (BCls "Discriminator") false; mk_child "xml" (BCls "XML_") false; mk_child "externalDocs" (BCls "ExternalDocumentation") false; mk_child "allOf" (BListOf (BRefElse "Reference" (BCls "Schema"))) false; mk_child "oneOf" (BListOf (BRefElse "Reference" (BCls "Schema"))) false; mk_child "anyOf" (BListOf (BRefElse "Reference" (BCls "Schema"))) false; mk_child "not" (BRefElse "Reference" (BCls "Schema")) false; mk_child "items" (BRefElse "Reference" (BCls "Schema")) false; mk_child "properties" (BMapOf (BRefElse "Reference" (BCls "Schema"))) false; mk_child "additionalProperties" (BBoolElse (BRefElse "Reference" (BCls "Schema"))) false]
  []
  [("multiple_of", "multipleOf"); ("exclusive_maximum", "exclusiveMaximum"); ("exclusive_minimum", "exclusiveMinimum"); ("max_length", "maxLength"); ("min_length", "minLength"); ("max_items", "maxItems"); ("min_items", "minItems"); ("unique_items", "uniqueItems"); ("max_properties", "maxProperties"); ("min_properties", "minProperties"); ("enum_", "enum"); ("type_", "type"); ("format_", "format"); ("read_only", "readOnly"); ("write_only", "writeOnly"); ("xml_", "xml"); ("external_docs", "externalDocs"); ("all_of", "allOf"); ("one_of", "oneOf"); ("any_of", "anyOf"); ("not_", "not"); ("additional_properties", "additionalProperties")]
  [].

(** class Parameter -- pyopenapi/migration/versions/v3_0_0/objects.py:246-269; attached at 319 *)
Definition v30_Parameter : classdef := mk_class
  [mk_field "name" true JNull false true; mk_field "in" true JNull false true; fld "description"; fld "required"; fld "deprecated"; fld "allowEmptyValue"; fld "style"; fld "explode"; fld "allowReserved"; fld "example"]
  [mk_child "examples" (BMapOf (BRefElse "Reference" (BCls "Example"))) false; mk_child "schema" (BRefElse "Reference" (BCls "Schema")) false; mk_child "content" (BMapOf (BCls "MediaType")) false]
  []
  [("in_", "in"); ("allow_empty_value", "allowEmptyValue"); ("allow_reserved", "allowReserved")]
  [].

(** class Header -- pyopenapi/migration/versions/v3_0_0/objects.py:275-283; inherits Parameter; attached at 319 *)
Definition v30_Header : classdef := mk_class
  [mk_field "name" false JNull true true; mk_field "in" false (JStr "header") true true; fld "description"; fld "required"; fld "deprecated"; fld "allowEmptyValue"; fld "style"; fld "explode"; fld "allowReserved"; fld "example"]
  [mk_child "examples" (BMapOf (BRefElse "Reference" (BCls "Example"))) false; mk_child "schema" (BRefElse "Reference" (BCls "Schema")) false]
  [mk_child "content" (BMapOf (BCls "MediaType")) false]
  [("in_", "in"); ("allow_empty_value", "allowEmptyValue"); ("allow_reserved", "allowReserved")]
  [].

(** class Encoding -- pyopenapi/migration/versions/v3_0_0/objects.py:289-304 *)
Definition v30_Encoding : classdef := mk_class
  [fld "contentType"; fld "stype"; fld "explode"; fld "allowReserved"]
  [mk_child "headers" (BMapOf (BRefElse "Reference" (BCls "Header"))) false]
  []
  [("content_type", "contentType"); ("allow_reserved", "allowReserved")]
  [].

(** class MediaType -- pyopenapi/migration/versions/v3_0_0/objects.py:307-316 *)
Definition v30_MediaType : classdef := mk_class
  [fld "example"]
  [mk_child "schema" (BRefElse "Reference" (BCls "Schema")) false; mk_child "examples" (BRefElse "Reference" (BCls "Example")) false; mk_child "encoding" (BMapOf (BCls "Encoding")) false]
  []
  []
  [].

(** class RequestBody -- pyopenapi/migration/versions/v3_0_0/objects.py:322-330 *)
Definition v30_RequestBody : classdef := mk_class
  [fld "description"; fld "required"]
  [mk_child "content" (BMapOf (BCls "MediaType")) true]
  []
  []
  [].

(** class Link -- pyopenapi/migration/versions/v3_0_0/objects.py:336-353 *)
Definition v30_Link : classdef := mk_class
  [fld "operationRef"; fld "operationId"; fld "requestBody"; fld "description"]
  [mk_child "server" (BCls "Server") false; mk_child "parameters" (BMapOf BStr) false]
  []
  [("operation_ref", "operationRef"); ("operation_id", "operationId"); ("request_body", "requestBody")]
  [].

(** class Response -- pyopenapi/migration/versions/v3_0_0/objects.py:359-368 *)
Definition v30_Response : classdef := mk_class
  [mk_field "description" true JNull false true]
  [mk_child "headers" (BMapOf (BRefElse "Reference" (BCls "Header"))) false; mk_child "content" (BMapOf (BCls "MediaType")) false; mk_child "links" (BMapOf (BRefElse "Reference" (BCls "Link"))) false]
  []
  []
  [].

(** class OAuthFlow -- pyopenapi/migration/versions/v3_0_0/objects.py:374-389 *)
Definition v30_OAuthFlow : classdef := mk_class
  [fld "authorizationUrl"; fld "tokenUrl"; fld "refreshUrl"]
  [mk_child "scopes" (BMapOf BStr) true]
  []
  [("authorization_url", "authorizationUrl"); ("token_url", "tokenUrl"); ("refresh_url", "refreshUrl")]
  [].

(** class OAuthFlows -- pyopenapi/migration/versions/v3_0_0/objects.py:392-403 *)
Definition v30_OAuthFlows : classdef := mk_class
  []
  [mk_child "implicit" (BCls "OAuthFlow") false; mk_child "password" (BCls "OAuthFlow") false; mk_child "clientCredentials" (BCls "OAuthFlow") false; mk_child "authorizationCode" (BCls "OAuthFlow") false]
  []
  [("client_credentials", "clientCredential"); ("authorization_code", "authorizationCode")]
  [].

(** class SecurityScheme -- pyopenapi/migration/versions/v3_0_0/objects.py:406-426 *)
Definition v30_SecurityScheme : classdef := mk_class
  [mk_field "type" true JNull false true; fld "description"; fld "name"; fld "in"; fld "scheme"; fld "bearerFormat"; fld "openIdConnectUrl"]
  [mk_child "flows" (BCls "OAuthFlows") false]
  []
  [("type_", "type"); ("in_", "in"); ("bearer_format", "bearerFormat"); ("openid_connect_url", "openIdConnectUrl")]
  [].

(** class Operation -- pyopenapi/migration/versions/v3_0_0/objects.py:432-454; attached at 494 *)
Definition v30_Operation : classdef := mk_class
  [fld "summary"; fld "description"; fld "operationId"; fld "deprecated"]
  [mk_child "externalDocs" (BCls "ExternalDocumentation") false; mk_child "tags" (BListOf BStr) false; mk_child "parameters" (BListOf (BRefElse "Reference" (BCls "Parameter"))) false; mk_child "requestBody" (BRefElse "Reference" (BCls "RequestBody")) false; mk_child "responses" (BMapOf (BRefElse "Reference" (BCls "Response"))) false; mk_child "security" (BListOf (BMapOf (BListOf BStr))) false; mk_child "servers" (BListOf (BCls "Server")) false; mk_child "callbacks" (BMapOf (BRefElse "Reference" (BMapOf (BCls "PathItem")))) false]
  []
  [("external_docs", "externalDocs"); ("operation_id", "operationId"); ("request_body", "requestBody")]
  [].

(** class PathItem -- pyopenapi/migration/versions/v3_0_0/objects.py:457-486 *)
Definition v30_PathItem : classdef := mk_class
  [mk_field "$ref" false JNull false false; fld "summary"; fld "description"]
  [mk_child "get" (BCls "Operation") false; mk_child "put" (BCls "Operation") false; mk_child "post" (BCls "Operation") false; mk_child "delete" (BCls "Operation") false; mk_child "options" (BCls "Operation") false; mk_child "head" (BCls "Operation") false; mk_child "patch" (BCls "Operation") false; mk_child "trace" (BCls "Operation") false; mk_child "servers" (BListOf (BCls "Server")) false; mk_child "parameters" (BListOf (BRefElse "Reference" (BCls "Parameter"))) false; mk_child "x-pyopenapi_internal_request_body" (BCls "RequestBody") false]
  []
  [("ref", "$ref"); ("x_pyopenapi_internal_request_body", "x-pyopenapi_internal_request_body")]
  [].

(** class Components -- pyopenapi/migration/versions/v3_0_0/objects.py:498-514 *)
Definition v30_Components : classdef := mk_class
  []
  [mk_child "schemas" (BMapOf (BRefElse "Reference" (BCls "Schema"))) false; mk_child "responses" (BMapOf (BRefElse "Reference" (BCls "Response"))) false; mk_child "parameters" (BMapOf (BRefElse "Reference" (BCls "Parameter"))) false; mk_child "examples" (BMapOf (BRefElse "Reference" (BCls "Example"))) false; mk_child "requestBodies" (BMapOf (BRefElse "Reference" (BCls "RequestBody"))) false; mk_child "headers" (BMapOf (BRefElse "Reference" (BCls "Header"))) false; mk_child "securitySchemes" (BMapOf (BRefElse "Reference" (BCls "SecurityScheme"))) false; mk_child "links" (BMapOf (BRefElse "Reference" (BCls "Link"))) false; mk_child "callbacks" (BMapOf (BRefElse "Reference" (BMapOf (BCls "PathItem")))) false]
  []
  [("request_bodies", "requestBodies"); ("security_schemes", "securitySchemes")]
  [].

(** class Tag -- pyopenapi/migration/versions/v3_0_0/objects.py:517-529 *)
Definition v30_Tag : classdef := mk_class
  [mk_field "name" true JNull false true; fld "description"]
  [mk_child "externalDocs" (BCls "ExternalDocumentation") false]
  []
  [("external_docs", "externalDocs")]
  [].

(** class OpenApi -- pyopenapi/migration/versions/v3_0_0/objects.py:532-549 *)
Definition v30_OpenApi : classdef := mk_class
  [fld "openapi"]
  [mk_child "info" (BCls "Info") false; mk_child "servers" (BListOf (BCls "Server")) false; mk_child "paths" (BMapOf (BCls "PathItem")) false; mk_child "components" (BCls "Components") false; mk_child "security" (BListOf (BMapOf (BListOf BStr))) false; mk_child "tags" (BListOf (BCls "Tag")) false; mk_child "externalDocs" (BCls "ExternalDocumentation") false]
  []
  [("external_docs", "externalDocs")]
  [].

(** the classes of OpenAPI 3.0.0 by name *)
Definition v30_table : ctable :=
  [("Reference", v30_Reference);
   ("Contact", v30_Contact);
   ("License", v30_License);
   ("Info", v30_Info);
   ("ServerVariable", v30_ServerVariable);
   ("Server", v30_Server);
   ("Example", v30_Example);
   ("XML_", v30_XML);
   ("ExternalDocumentation", v30_ExternalDocumentation);
   ("Discriminator", v30_Discriminator);
   ("Schema", v30_Schema);
   ("Parameter", v30_Parameter);
   ("Header", v30_Header);
   ("Encoding", v30_Encoding);
   ("MediaType", v30_MediaType);
   ("RequestBody", v30_RequestBody);
   ("Link", v30_Link);
   ("Response", v30_Response);
   ("OAuthFlow", v30_OAuthFlow);
   ("OAuthFlows", v30_OAuthFlows);
   ("SecurityScheme", v30_SecurityScheme);
   ("Operation", v30_Operation);
   ("PathItem", v30_PathItem);
   ("Components", v30_Components);
   ("Tag", v30_Tag);
   ("OpenApi", v30_OpenApi)].
