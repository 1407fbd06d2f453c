(** * The class declarations of the three versions, statement by statement, transcribed from
    pyopenapi/migration/versions/{v1_2,v2_0,v3_0_0}/objects.py.  Left out: [__swagger_version__],
    [__renamed__] (which nothing reads) and class Callback of 3.0.0, which is [map_(PathItem)]. *)
From Coq Require Import String List.
From Verif Require Import PyVal Obj Declare.
Import ListNotations.
Open Scope string_scope.

Definition no_args : args := mk_args None None None None None.
(** [dict()], [dict(key=k, builder=rename)], [dict(child_builder=b)] *)
Definition plain_ : desc := mk_desc None None no_args.
Definition alias (k : string) : desc := mk_desc (Some FRename) (Some k) no_args.
Definition kid (b : builder) : desc := mk_desc None None (mk_args None None None None (Some b)).

(** the module of Swagger 1.2 -- pyopenapi/migration/versions/v1_2/objects.py (lines in front of each statement); [Base2] is the base None *)
Definition v12_module : list stmt :=
  [(* 8-9 *) Declare "BaseObj_v1_2" None
     []
     []
     [];
   (* 12-25 *) Declare "Items" (Some "BaseObj_v1_2")
     [("$ref", plain_); ("type", plain_); ("format", plain_)]
     []
     [("ref", alias "$ref"); ("type_", alias "type"); ("format_", alias "format")];
   (* 28-52 *) Declare "DataTypeObj" (Some "BaseObj_v1_2")
     [("type", plain_); ("$ref", plain_); ("format", plain_); ("defaultValue", plain_); ("enum", plain_); ("minimum", plain_); ("maximum", plain_); ("uniqueItems", plain_)]
     [("items", kid (BCls "Items"))]
     [("type_", alias "type"); ("ref", alias "$ref"); ("format_", alias "format"); ("default_value", alias "defaultValue"); ("unique_items", alias "uniqueItems")];
   (* 55-62 *) Declare "Scope" (Some "BaseObj_v1_2")
     [("scope", mk_desc None None (mk_args (Some true) None None None None)); ("description", plain_)]
     []
     [];
   (* 65-71 *) Declare "LoginEndpoint" (Some "BaseObj_v1_2")
     [("url", mk_desc None None (mk_args (Some true) None None None None))]
     []
     [];
   (* 74-89 *) Declare "Implicit" (Some "BaseObj_v1_2")
     [("tokenName", plain_)]
     [("loginEndpoint", mk_desc None None (mk_args (Some true) None None None (Some (BCls "LoginEndpoint"))))]
     [("token_name", alias "tokenName"); ("login_endpoint", alias "loginEndpoint")];
   (* 92-105 *) Declare "TokenRequestEndpoint" (Some "BaseObj_v1_2")
     [("url", mk_desc None None (mk_args (Some true) None None None None)); ("clientIdName", plain_); ("clientSecretName", plain_)]
     []
     [("client_id_name", alias "clientIdName"); ("client_secret_name", alias "clientSecretName")];
   (* 108-119 *) Declare "TokenEndpoint" (Some "BaseObj_v1_2")
     [("url", mk_desc None None (mk_args (Some true) None None None None)); ("tokenName", plain_)]
     []
     [("token_name", alias "tokenName")];
   (* 122-135 *) Declare "AuthorizationCode" (Some "BaseObj_v1_2")
     []
     [("tokenRequestEndpoint", kid (BCls "TokenRequestEndpoint")); ("tokenEndpoint", kid (BCls "TokenEndpoint"))]
     [("token_request_endpoint", alias "tokenRequestEndpoint"); ("token_endpoint", alias "tokenEndpoint")];
   (* 138-145 *) Declare "GrantTypes" (Some "BaseObj_v1_2")
     []
     [("implicit", kid (BCls "Implicit")); ("authorization_code", kid (BCls "AuthorizationCode"))]
     [];
   (* 148-155 *) Declare "Authorizations" (Some "BaseObj_v1_2")
     [("scope", plain_); ("description", plain_)]
     []
     [];
   (* 158-177 *) Declare "Authorization" (Some "BaseObj_v1_2")
     [("type", plain_); ("passAs", plain_); ("keyname", plain_)]
     [("scopes", kid (BListOf (BCls "Scope"))); ("grantTypes", kid (BCls "GrantTypes"))]
     [("type_", alias "type"); ("pass_as", alias "passAs"); ("grant_types", alias "grantTypes")];
   (* 180-192 *) Declare "ResponseMessage" (Some "BaseObj_v1_2")
     [("code", mk_desc None None (mk_args (Some true) None None None None)); ("message", mk_desc None None (mk_args (Some true) None None None None)); ("responseModel", plain_)]
     []
     [("response_model", alias "responseModel")];
   (* 195-210 *) Declare "Parameter" (Some "DataTypeObj")
     [("paramType", mk_desc None None (mk_args (Some true) None None None None)); ("name", mk_desc None None (mk_args (Some true) None None None None)); ("description", plain_); ("required", plain_); ("allowMultiple", plain_)]
     []
     [("param_type", alias "paramType"); ("allow_multiple", alias "allowMultiple")];
   (* 213-235 *) Declare "Operation" (Some "DataTypeObj")
     [("method", mk_desc None None (mk_args (Some true) None None None None)); ("summary", plain_); ("notes", plain_); ("nickname", mk_desc None None (mk_args (Some true) None None None None)); ("produces", plain_); ("consumes", plain_); ("deprecated", plain_)]
     [("authorizations", kid (BMapOf (BListOf (BCls "Authorizations")))); ("parameters", kid (BListOf (BCls "Parameter"))); ("responseMessages", kid (BListOf (BCls "ResponseMessage")))]
     [("response_messages", alias "responseMessages")];
   (* 238-249 *) Declare "Api" (Some "BaseObj_v1_2")
     [("path", mk_desc None None (mk_args (Some true) None None None None)); ("description", plain_)]
     [("operations", kid (BListOf (BCls "Operation")))]
     [];
   (* 252-258 *) Declare "Property" (Some "DataTypeObj")
     [("description", plain_)]
     []
     [];
   (* 261-280 *) Declare "Model" (Some "BaseObj_v1_2")
     [("id", mk_desc None None (mk_args (Some true) None None None None)); ("description", plain_); ("required", plain_); ("subTypes", plain_); ("discriminator", plain_)]
     [("properties", mk_desc None None (mk_args (Some true) None None None (Some (BMapOf (BCls "Property")))))]
     [("id_", alias "id"); ("sub_types", alias "subTypes")];
   (* 283-309 *) Declare "ApiDeclaration" (Some "BaseObj_v1_2")
     [("swaggerVersion", mk_desc None None (mk_args (Some true) None None None None)); ("apiVersion", plain_); ("basePath", mk_desc None None (mk_args (Some true) None None None None)); ("resourcePath", plain_); ("produces", plain_); ("consumes", plain_); ("description", plain_)]
     [("apis", mk_desc None None (mk_args (Some true) None None None (Some (BListOf (BCls "Api"))))); ("models", kid (BMapOf (BCls "Model"))); ("authorizations", kid (BMapOf (BListOf (BCls "Authorizations"))))]
     [("swagger_version", alias "swaggerVersion"); ("api_version", alias "apiVersion"); ("base_path", alias "basePath"); ("resource_path", alias "resourcePath")];
   (* 312-328 *) Declare "Info" (Some "BaseObj_v1_2")
     [("title", mk_desc None None (mk_args (Some true) None None None None)); ("description", mk_desc None None (mk_args (Some true) None None None None)); ("termsOfServiceUrl", plain_); ("contact", plain_); ("license", plain_); ("licenseUrl", plain_)]
     []
     [("terms_of_service_url", alias "termsOfServiceUrl"); ("license_url", alias "licenseUrl")];
   (* 331-337 *) Declare "ResourceInListing" (Some "BaseObj_v1_2")
     [("path", plain_); ("description", plain_)]
     []
     [];
   (* 340-358 *) Declare "ResourceListing" (Some "BaseObj_v1_2")
     [("swaggerVersion", mk_desc None None (mk_args (Some true) None None None None)); ("apiVersion", plain_)]
     [("apis", kid (BListOf (BCls "ResourceInListing"))); ("info", kid (BCls "Info")); ("authorizations", kid (BMapOf (BCls "Authorization")))]
     [("cached_apis", plain_); ("swagger_version", alias "swaggerVersion"); ("api_version", alias "apiVersion")]].

(** the module of Swagger 2.0 -- pyopenapi/migration/versions/v2_0/objects.py (lines in front of each statement); [Base2] is the base None *)
Definition v20_module : list stmt :=
  [(* 39-40 *) Declare "BaseObj_v2_0" None
     []
     []
     [];
   (* 43-52 *) Declare "Reference" (Some "BaseObj_v2_0")
     [("$ref", mk_desc None None (mk_args None None None (Some false) None))]
     []
     [("ref", alias "$ref")];
   (* 55-64 *) Declare "XMLObject" (Some "BaseObj_v2_0")
     [("name", plain_); ("namespace", plain_); ("prefix", plain_); ("attribute", plain_); ("wrapped", plain_)]
     []
     [];
   (* 67-74 *) Declare "ExternalDocumentation" (Some "BaseObj_v2_0")
     [("description", plain_); ("url", plain_)]
     []
     [];
   (* 77-91 *) Declare "Tag" (Some "BaseObj_v2_0")
     [("name", plain_); ("description", plain_)]
     [("externalDocs", kid (BCls "ExternalDocumentation"))]
     [];
   (* 94-127 *) Declare "BaseSchema" (Some "BaseObj_v2_0")
     [("type", plain_); ("format", plain_); ("default", plain_); ("maximum", plain_); ("exclusiveMaximum", plain_); ("minimum", plain_); ("exclusiveMinimum", plain_); ("maxLength", plain_); ("minLength", plain_); ("maxItems", plain_); ("minItems", plain_); ("multipleOf", plain_); ("enum", plain_); ("pattern", plain_); ("uniqueItems", plain_)]
     []
     [];
   (* 130-140 *) Declare "Items" (Some "BaseSchema")
     [("collectionFormat", mk_desc None None (mk_args None (Some (JStr "csv")) None None None))]
     []
     [];
   (* 143-143 *) Attach "Items" "items" (mk_desc (Some FChild) None (mk_args None None None None (Some (BCls "Items"))));
   (* 146-175 *) Declare "Schema" (Some "BaseSchema")
     [("$ref", mk_desc None None (mk_args None None None (Some false) None)); ("maxProperties", plain_); ("minProperties", plain_); ("title", plain_); ("description", plain_); ("discriminator", plain_); ("readOnly", plain_); ("example", plain_); ("required", mk_desc None None (mk_args None (Some (JList [])) None None None))]
     [("xml", kid (BCls "XMLObject")); ("externalDocs", kid (BCls "ExternalDocumentation"))]
     [("ref", alias "$ref"); ("max_properties", alias "maxProperties"); ("min_properties", alias "minProperties"); ("read_only", alias "readOnly"); ("external_docs", alias "externalDocs"); ("all_of", alias "allOf"); ("additional_properties", alias "additionalProperties")];
   (* 180-180 *) Attach "Schema" "items" (mk_desc (Some FChild) None (mk_args None None None None (Some (BCls "Schema"))));
   (* 181-181 *) Attach "Schema" "allOf" (mk_desc (Some FChild) None (mk_args None None None None (Some (BListOf (BCls "Schema")))));
   (* 182-182 *) Attach "Schema" "properties" (mk_desc (Some FChild) None (mk_args None None None None (Some (BMapOf (BCls "Schema")))));
   (* 183-184 *) Attach "Schema" "additionalProperties" (mk_desc (Some FChild) None (mk_args None None None None (Some (BBoolElse (BCls "Schema")))));
   (* 187-194 *) Declare "Contact" (Some "BaseObj_v2_0")
     [("name", plain_); ("url", plain_); ("email", plain_)]
     []
     [];
   (* 197-203 *) Declare "License" (Some "BaseObj_v2_0")
     [("name", plain_); ("url", plain_)]
     []
     [];
   (* 206-223 *) Declare "Info" (Some "BaseObj_v2_0")
     [("version", plain_); ("title", plain_); ("description", plain_); ("termsOfService", plain_)]
     [("contact", kid (BCls "Contact")); ("license", kid (BCls "License"))]
     [("terms_of_service", alias "termsOfService")];
   (* 226-247 *) Declare "Parameter" (Some "BaseSchema")
     [("name", plain_); ("in", plain_); ("required", plain_); ("collectionFormat", mk_desc None None (mk_args None (Some (JStr "csv")) None None None)); ("description", plain_); ("allowEmptyValue", plain_)]
     [("schema", kid (BCls "Schema")); ("items", kid (BCls "Items"))]
     [("in_", alias "in"); ("collection_format", alias "collectionFormat"); ("allow_empty_value", alias "allowEmptyValue")];
   (* 253-267 *) Declare "Header" (Some "BaseSchema")
     [("collectionFormat", mk_desc None None (mk_args None (Some (JStr "csv")) None None None)); ("description", plain_)]
     [("items", kid (BCls "Items"))]
     [("collection_format", alias "collectionFormat")];
   (* 270-281 *) Declare "Response" (Some "BaseObj_v2_0")
     [("description", plain_); ("examples", plain_)]
     [("schema", kid (BCls "Schema")); ("headers", kid (BMapOf (BCls "Header")))]
     [];
   (* 288-320 *) Declare "Operation" (Some "BaseObj_v2_0")
     [("operationId", plain_); ("deprecated", plain_); ("description", plain_); ("summary", plain_)]
     [("tags", kid (BListOf BStr)); ("consumes", kid (BListOf BStr)); ("produces", kid (BListOf BStr)); ("schemes", kid (BListOf BStr)); ("parameters", kid (BListOf (BRefElse "Reference" (BCls "Parameter")))); ("responses", kid (BMapOf (BRefElse "Reference" (BCls "Response")))); ("security", kid (BListOf (BMapOf (BListOf BStr)))); ("externalDocs", kid (BCls "ExternalDocumentation"))]
     [("method", plain_); ("url", plain_); ("path", plain_); ("base_path", plain_); ("cached_schemes", mk_desc None None (mk_args None (Some (JList [])) None None None)); ("cached_consumes", mk_desc None None (mk_args None (Some (JList [])) None None None)); ("cached_produces", mk_desc None None (mk_args None (Some (JList [])) None None None)); ("cached_security", plain_); ("operation_id", alias "operationId"); ("external_docs", alias "externalDocs")];
   (* 323-343 *) Declare "PathItem" (Some "BaseObj_v2_0")
     [("$ref", mk_desc None None (mk_args None None None (Some false) None))]
     [("get", kid (BCls "Operation")); ("put", kid (BCls "Operation")); ("post", kid (BCls "Operation")); ("delete", kid (BCls "Operation")); ("options", kid (BCls "Operation")); ("head", kid (BCls "Operation")); ("patch", kid (BCls "Operation")); ("parameters", kid (BListOf (BRefElse "Reference" (BCls "Parameter"))))]
     [("ref", alias "$ref")];
   (* 346-364 *) Declare "SecurityScheme" (Some "BaseObj_v2_0")
     [("type", plain_); ("description", plain_); ("name", plain_); ("in", plain_); ("flow", plain_); ("authorizationUrl", plain_); ("tokenUrl", plain_)]
     [("scopes", kid (BMapOf BStr))]
     [("type_", alias "type"); ("in_", alias "in")];
   (* 367-396 *) Declare "Swagger" (Some "BaseObj_v2_0")
     [("swagger", plain_); ("host", plain_); ("basePath", plain_)]
     [("info", kid (BCls "Info")); ("schemes", kid (BListOf BStr)); ("consumes", kid (BListOf BStr)); ("produces", kid (BListOf BStr)); ("paths", kid (BMapOf (BCls "PathItem"))); ("definitions", kid (BMapOf (BCls "Schema"))); ("parameters", kid (BMapOf (BCls "Parameter"))); ("responses", kid (BMapOf (BCls "Response"))); ("securityDefinitions", kid (BMapOf (BCls "SecurityScheme"))); ("security", kid (BListOf (BListOf BStr))); ("tags", kid (BListOf (BCls "Tag"))); ("externalDocs", kid (BCls "ExternalDocumentation"))]
     [("base_path", alias "basePath"); ("security_definitions", alias "securityDefinitions"); ("external_docs", alias "externalDocs")]].

(** the module of OpenAPI 3.0.0 -- pyopenapi/migration/versions/v3_0_0/objects.py (lines in front of each statement); [Base2] is the base None *)
Definition v30_module : list stmt :=
  [(* 10-11 *) Declare "Base2_v3_0_0" None
     []
     []
     [];
   (* 14-19 *) Declare "Reference" (Some "Base2_v3_0_0")
     [("$ref", mk_desc None None (mk_args (Some true) None None (Some false) None))]
     []
     [("ref", alias "$ref")];
   (* 60-65 *) Declare "Contact" (Some "Base2_v3_0_0")
     [("name", plain_); ("url", plain_); ("email", plain_)]
     []
     [];
   (* 68-72 *) Declare "License" (Some "Base2_v3_0_0")
     [("name", mk_desc None None (mk_args (Some true) None None None None)); ("url", plain_)]
     []
     [];
   (* 75-90 *) Declare "Info" (Some "Base2_v3_0_0")
     [("title", mk_desc None None (mk_args (Some true) None None None None)); ("description", plain_); ("termsOfService", plain_); ("version", mk_desc None None (mk_args (Some true) None None None None))]
     [("contact", kid (BCls "Contact")); ("license", kid (BCls "License"))]
     [("terms_of_service", alias "termsOfService")];
   (* 93-103 *) Declare "ServerVariable" (Some "Base2_v3_0_0")
     [("default", mk_desc None None (mk_args (Some true) None None None None)); ("description", plain_)]
     [("enum", kid (BListOf BStr))]
     [("enum_", alias "enum")];
   (* 106-114 *) Declare "Server" (Some "Base2_v3_0_0")
     [("url", mk_desc None None (mk_args (Some true) None None None None)); ("description", plain_)]
     [("variables", kid (BMapOf (BCls "ServerVariable")))]
     [];
   (* 117-127 *) Declare "Example" (Some "Base2_v3_0_0")
     [("summary", plain_); ("description", plain_); ("value", plain_); ("externalValue", plain_)]
     []
     [("external_value", alias "externalValue")];
   (* 133-140 *) Declare "XML_" (Some "Base2_v3_0_0")
     [("name", plain_); ("namespace", plain_); ("prefix", plain_); ("attribute", plain_); ("wrapped", plain_)]
     []
     [];
   (* 143-147 *) Declare "ExternalDocumentation" (Some "Base2_v3_0_0")
     [("description", plain_); ("url", mk_desc None None (mk_args (Some true) None None None None))]
     []
     [];
   (* 150-161 *) Declare "Discriminator" (Some "Base2_v3_0_0")
     [("propertyName", mk_desc None (Some "propertyName") no_args)]
     [("mapping", kid (BMapOf BStr))]
     [("property_name", alias "propertyName")];
   (* 164-223 *) Declare "Schema" (Some "Base2_v3_0_0")
     [("title", plain_); ("multipleOf", plain_); ("maximum", plain_); ("exclusiveMaximum", plain_); ("minimum", plain_); ("exclusiveMinimum", plain_); ("maxLength", plain_); ("minLength", plain_); ("pattern", plain_); ("maxItems", plain_); ("minItems", plain_); ("uniqueItems", plain_); ("maxProperties", plain_); ("minProperties", plain_); ("required", plain_); ("enum", plain_); ("type", plain_); ("description", plain_); ("format", plain_); ("default", plain_); ("nullable", plain_); ("readOnly", plain_); ("writeOnly", plain_); ("example", plain_); ("depreated", plain_)]
     [("discriminator", kid (BCls "Discriminator")); ("xml", kid (BCls "XML_")); ("externalDocs", kid (BCls "ExternalDocumentation"))]
     [("multiple_of", alias "multipleOf"); ("exclusive_maximum", alias "exclusiveMaximum"); ("exclusive_minimum", alias "exclusiveMinimum"); ("max_length", alias "maxLength"); ("min_length", alias "minLength"); ("max_items", alias "maxItems"); ("min_items", alias "minItems"); ("unique_items", alias "uniqueItems"); ("max_properties", alias "maxProperties"); ("min_properties", alias "minProperties"); ("enum_", alias "enum"); ("type_", alias "type"); ("format_", alias "format"); ("read_only", alias "readOnly"); ("write_only", alias "writeOnly"); ("xml_", alias "xml"); ("external_docs", alias "externalDocs"); ("all_of", alias "allOf"); ("one_of", alias "oneOf"); ("any_of", alias "anyOf"); ("not_", alias "not"); ("additional_properties", alias "additionalProperties")];
   (* 229-230 *) Attach "Schema" "allOf" (mk_desc (Some FChild) None (mk_args None None None None (Some (BListOf (BRefElse "Reference" (BCls "Schema"))))));
   (* 231-232 *) Attach "Schema" "oneOf" (mk_desc (Some FChild) None (mk_args None None None None (Some (BListOf (BRefElse "Reference" (BCls "Schema"))))));
   (* 233-234 *) Attach "Schema" "anyOf" (mk_desc (Some FChild) None (mk_args None None None None (Some (BListOf (BRefElse "Reference" (BCls "Schema"))))));
   (* 235-235 *) Attach "Schema" "not" (mk_desc (Some FChild) None (mk_args None None None None (Some (BRefElse "Reference" (BCls "Schema")))));
   (* 236-236 *) Attach "Schema" "items" (mk_desc (Some FChild) None (mk_args None None None None (Some (BRefElse "Reference" (BCls "Schema")))));
   (* 237-238 *) Attach "Schema" "properties" (mk_desc (Some FChild) None (mk_args None None None None (Some (BMapOf (BRefElse "Reference" (BCls "Schema"))))));
   (* 239-243 *) Attach "Schema" "additionalProperties" (mk_desc (Some FChild) None (mk_args None None None None (Some (BBoolElse (BRefElse "Reference" (BCls "Schema"))))));
   (* 246-269 *) Declare "Parameter" (Some "Base2_v3_0_0")
     [("name", mk_desc None None (mk_args (Some true) None None None None)); ("in", mk_desc None None (mk_args (Some true) None None None None)); ("description", plain_); ("required", plain_); ("deprecated", plain_); ("allowEmptyValue", plain_); ("style", plain_); ("explode", plain_); ("allowReserved", plain_); ("example", plain_)]
     [("examples", kid (BMapOf (BRefElse "Reference" (BCls "Example")))); ("schema", kid (BRefElse "Reference" (BCls "Schema")))]
     [("in_", alias "in"); ("allow_empty_value", alias "allowEmptyValue"); ("allow_reserved", alias "allowReserved")];
   (* 275-283 *) Declare "Header" (Some "Parameter")
     [("name", mk_desc None None (mk_args None None (Some true) None None)); ("in", mk_desc None None (mk_args None (Some (JStr "header")) (Some true) None None))]
     []
     [("in_", alias "in")];
   (* 289-304 *) Declare "Encoding" (Some "Base2_v3_0_0")
     [("contentType", plain_); ("stype", plain_); ("explode", plain_); ("allowReserved", plain_)]
     [("headers", kid (BMapOf (BRefElse "Reference" (BCls "Header"))))]
     [("content_type", alias "contentType"); ("allow_reserved", alias "allowReserved")];
   (* 307-316 *) Declare "MediaType" (Some "Base2_v3_0_0")
     [("example", plain_)]
     [("schema", kid (BRefElse "Reference" (BCls "Schema"))); ("examples", kid (BRefElse "Reference" (BCls "Example"))); ("encoding", kid (BMapOf (BCls "Encoding")))]
     [];
   (* 319-319 *) Attach "Parameter" "content" (mk_desc (Some FChild) None (mk_args None None None None (Some (BMapOf (BCls "MediaType")))));
   (* 322-330 *) Declare "RequestBody" (Some "Base2_v3_0_0")
     [("description", plain_); ("required", plain_)]
     [("content", mk_desc None None (mk_args (Some true) None None None (Some (BMapOf (BCls "MediaType")))))]
     [];
   (* 336-353 *) Declare "Link" (Some "Base2_v3_0_0")
     [("operationRef", plain_); ("operationId", plain_); ("requestBody", plain_); ("description", plain_)]
     [("server", kid (BCls "Server")); ("parameters", kid (BMapOf BStr))]
     [("operation_ref", alias "operationRef"); ("operation_id", alias "operationId"); ("request_body", alias "requestBody")];
   (* 359-368 *) Declare "Response" (Some "Base2_v3_0_0")
     [("description", mk_desc None None (mk_args (Some true) None None None None))]
     [("headers", kid (BMapOf (BRefElse "Reference" (BCls "Header")))); ("content", kid (BMapOf (BCls "MediaType"))); ("links", kid (BMapOf (BRefElse "Reference" (BCls "Link"))))]
     [];
   (* 374-389 *) Declare "OAuthFlow" (Some "Base2_v3_0_0")
     [("authorizationUrl", plain_); ("tokenUrl", plain_); ("refreshUrl", plain_)]
     [("scopes", mk_desc None None (mk_args (Some true) None None None (Some (BMapOf BStr))))]
     [("authorization_url", alias "authorizationUrl"); ("token_url", alias "tokenUrl"); ("refresh_url", alias "refreshUrl")];
   (* 392-403 *) Declare "OAuthFlows" (Some "Base2_v3_0_0")
     []
     [("implicit", kid (BCls "OAuthFlow")); ("password", kid (BCls "OAuthFlow")); ("clientCredentials", kid (BCls "OAuthFlow")); ("authorizationCode", kid (BCls "OAuthFlow"))]
     [("client_credentials", alias "clientCredential"); ("authorization_code", alias "authorizationCode")];
   (* 406-426 *) Declare "SecurityScheme" (Some "Base2_v3_0_0")
     [("type", mk_desc None None (mk_args (Some true) None None None None)); ("description", plain_); ("name", plain_); ("in", plain_); ("scheme", plain_); ("bearerFormat", plain_); ("openIdConnectUrl", plain_)]
     [("flows", kid (BCls "OAuthFlows"))]
     [("type_", alias "type"); ("in_", alias "in"); ("bearer_format", alias "bearerFormat"); ("openid_connect_url", alias "openIdConnectUrl")];
   (* 432-454 *) Declare "Operation" (Some "Base2_v3_0_0")
     [("summary", plain_); ("description", plain_); ("operationId", plain_); ("deprecated", plain_)]
     [("externalDocs", kid (BCls "ExternalDocumentation")); ("tags", kid (BListOf BStr)); ("parameters", kid (BListOf (BRefElse "Reference" (BCls "Parameter")))); ("requestBody", kid (BRefElse "Reference" (BCls "RequestBody"))); ("responses", kid (BMapOf (BRefElse "Reference" (BCls "Response")))); ("security", kid (BListOf (BMapOf (BListOf BStr)))); ("servers", kid (BListOf (BCls "Server")))]
     [("external_docs", alias "externalDocs"); ("operation_id", alias "operationId"); ("request_body", alias "requestBody")];
   (* 457-486 *) Declare "PathItem" (Some "Base2_v3_0_0")
     [("$ref", mk_desc None None (mk_args None None None (Some false) None)); ("summary", plain_); ("description", plain_)]
     [("get", kid (BCls "Operation")); ("put", kid (BCls "Operation")); ("post", kid (BCls "Operation")); ("delete", kid (BCls "Operation")); ("options", kid (BCls "Operation")); ("head", kid (BCls "Operation")); ("patch", kid (BCls "Operation")); ("trace", kid (BCls "Operation")); ("servers", kid (BListOf (BCls "Server"))); ("parameters", kid (BListOf (BRefElse "Reference" (BCls "Parameter")))); ("x-pyopenapi_internal_request_body", kid (BCls "RequestBody"))]
     [("ref", alias "$ref"); ("x_pyopenapi_internal_request_body", alias "x-pyopenapi_internal_request_body")];
   (* 494-495 *) Attach "Operation" "callbacks" (mk_desc (Some FChild) None (mk_args None None None None (Some (BMapOf (BRefElse "Reference" (BMapOf (BCls "PathItem")))))));
   (* 498-514 *) Declare "Components" (Some "Base2_v3_0_0")
     []
     [("schemas", kid (BMapOf (BRefElse "Reference" (BCls "Schema")))); ("responses", kid (BMapOf (BRefElse "Reference" (BCls "Response")))); ("parameters", kid (BMapOf (BRefElse "Reference" (BCls "Parameter")))); ("examples", kid (BMapOf (BRefElse "Reference" (BCls "Example")))); ("requestBodies", kid (BMapOf (BRefElse "Reference" (BCls "RequestBody")))); ("headers", kid (BMapOf (BRefElse "Reference" (BCls "Header")))); ("securitySchemes", kid (BMapOf (BRefElse "Reference" (BCls "SecurityScheme")))); ("links", kid (BMapOf (BRefElse "Reference" (BCls "Link")))); ("callbacks", kid (BMapOf (BRefElse "Reference" (BMapOf (BCls "PathItem")))))]
     [("request_bodies", alias "requestBodies"); ("security_schemes", alias "securitySchemes")];
   (* 517-529 *) Declare "Tag" (Some "Base2_v3_0_0")
     [("name", mk_desc None None (mk_args (Some true) None None None None)); ("description", plain_)]
     [("externalDocs", kid (BCls "ExternalDocumentation"))]
     [("external_docs", alias "externalDocs")];
   (* 532-549 *) Declare "OpenApi" (Some "Base2_v3_0_0")
     [("openapi", plain_)]
     [("info", kid (BCls "Info")); ("servers", kid (BListOf (BCls "Server"))); ("paths", kid (BMapOf (BCls "PathItem"))); ("components", kid (BCls "Components")); ("security", kid (BListOf (BMapOf (BListOf BStr)))); ("tags", kid (BListOf (BCls "Tag"))); ("externalDocs", kid (BCls "ExternalDocumentation"))]
     [("external_docs", alias "externalDocs")]].
