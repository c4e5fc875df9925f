(** * The messages of the generated codec

    Written by tools/gen_schemas.py from the text of the Go files. *)

From Verif Require Import Wire.
Local Open Scope string_scope.
Local Open Scope N_scope.

(** api/oidc/client/v1/client_api_vtproto.pb.go: MarshalToSizedBufferVT 41-82, SizeVT 233-257, UnmarshalVT 309-491 *)
Definition sch_client_AuthenticateRequest : schema := [
    Plain (mkField "ClientId" (TOptStr) [10] 1 1 2);
    Plain (mkField "ClientSecret" (TOptStr) [18] 1 2 2);
    Plain (mkField "ClientAssertionType" (TOptStr) [26] 1 3 2);
    Plain (mkField "ClientAssertion" (TOptStr) [34] 1 4 2)].

(** api/oidc/client/v1/client_api_vtproto.pb.go: MarshalToSizedBufferVT 102-135, SizeVT 259-275, UnmarshalVT 492-614 *)
Definition sch_client_AuthenticateResponse : schema := [
    Plain (mkField "Error" (TMsg "core.Error") [10] 1 1 2);
    Plain (mkField "Client" (TMsg "client.Client") [18] 1 2 2)].

(** api/oidc/client/v1/client_api_vtproto.pb.go: MarshalToSizedBufferVT 155-178, SizeVT 277-289, UnmarshalVT 615-701 *)
Definition sch_client_RegisterRequest : schema := [
    Plain (mkField "Metadata" (TMsg "client.ClientMeta") [10] 1 1 2)].

(** api/oidc/client/v1/client_api_vtproto.pb.go: MarshalToSizedBufferVT 198-231, SizeVT 291-307, UnmarshalVT 702-824 *)
Definition sch_client_RegisterResponse : schema := [
    Plain (mkField "Error" (TMsg "core.Error") [10] 1 1 2);
    Plain (mkField "Client" (TMsg "client.Client") [18] 1 2 2)].

(** api/oidc/client/v1/client_vtproto.pb.go: MarshalToSizedBufferVT 40-295, SizeVT 745-870, UnmarshalVT 1068-1957 *)
Definition sch_client_Client : schema := [
    Plain (mkField "ClientId" (TStr) [10] 1 1 2);
    Plain (mkField "ClientType" (TNum NEnum) [16] 1 2 0);
    Plain (mkField "RedirectUris" (TRepStr) [26] 1 3 2);
    Plain (mkField "ResponseTypes" (TRepStr) [34] 1 4 2);
    Plain (mkField "ResponseModes" (TRepStr) [42] 1 5 2);
    Plain (mkField "GrantTypes" (TRepStr) [50] 1 6 2);
    Plain (mkField "ApplicationType" (TStr) [58] 1 7 2);
    Plain (mkField "Contacts" (TRepStr) [66] 1 8 2);
    Plain (mkField "ClientName" (TStr) [74] 1 9 2);
    Plain (mkField "LogoUri" (TStr) [82] 1 10 2);
    Plain (mkField "ClientUri" (TStr) [90] 1 11 2);
    Plain (mkField "PolicyUri" (TStr) [98] 1 12 2);
    Plain (mkField "TosUri" (TStr) [106] 1 13 2);
    Plain (mkField "JwksUri" (TStr) [114] 1 14 2);
    Plain (mkField "Jwks" (TStr) [122] 1 15 2);
    Plain (mkField "ClientSecret" (TStr) [130; 1] 2 16 2);
    Plain (mkField "SubjectType" (TStr) [138; 1] 2 17 2);
    Plain (mkField "SectorIdentifier" (TStr) [146; 1] 2 18 2);
    Plain (mkField "TokenEndpointAuthMethod" (TStr) [154; 1] 2 19 2);
    Plain (mkField "TlsClientAuthSubjectDn" (TStr) [162; 1] 2 20 2);
    Plain (mkField "TlsClientAuthSanDns" (TStr) [170; 1] 2 21 2);
    Plain (mkField "TlsClientAuthSanUri" (TStr) [178; 1] 2 22 2);
    Plain (mkField "TlsClientAuthSanIp" (TStr) [186; 1] 2 23 2);
    Plain (mkField "TlsClientAuthSanEmail" (TStr) [194; 1] 2 24 2);
    Plain (mkField "TlsClientCertificateBoundAccessTokens" (TNum NBool) [200; 1] 3 25 0);
    Plain (mkField "RequirePushedAuthorizationRequests" (TNum NBool) [208; 1] 3 26 0);
    Plain (mkField "RequireSignedRequestObject" (TNum NBool) [216; 1] 3 27 0);
    Plain (mkField "DpopBoundAccessTokens" (TNum NBool) [224; 1] 3 28 0)].

(** api/oidc/client/v1/client_vtproto.pb.go: MarshalToSizedBufferVT 315-692, SizeVT 872-1046, UnmarshalVT 1958-3520 *)
Definition sch_client_ClientMeta : schema := [
    Plain (mkField "ApplicationType" (TOptStr) [10] 1 1 2);
    Plain (mkField "RedirectUris" (TRepStr) [18] 1 2 2);
    Plain (mkField "TokenEndpointAuthMethod" (TOptStr) [26] 1 3 2);
    Plain (mkField "GrantTypes" (TRepStr) [34] 1 4 2);
    Plain (mkField "ResponseTypes" (TRepStr) [42] 1 5 2);
    Plain (mkField "ClientName" (TOptStr) [50] 1 6 2);
    Plain (mkField "ClientNameI18N" (TMap) [58] 1 7 2);
    Plain (mkField "ClientUri" (TOptStr) [66] 1 8 2);
    Plain (mkField "LogoUri" (TOptStr) [74] 1 9 2);
    Plain (mkField "LogoUriI18N" (TMap) [82] 1 10 2);
    Plain (mkField "Scope" (TOptStr) [90] 1 11 2);
    Plain (mkField "Contacts" (TRepStr) [98] 1 12 2);
    Plain (mkField "TosUri" (TOptStr) [106] 1 13 2);
    Plain (mkField "TosUriI18N" (TMap) [114] 1 14 2);
    Plain (mkField "PolicyUri" (TOptStr) [122] 1 15 2);
    Plain (mkField "PolicyUriI18N" (TMap) [130; 1] 2 16 2);
    Plain (mkField "JwkUri" (TOptStr) [138; 1] 2 17 2);
    Plain (mkField "Jwks" (TOptStr) [146; 1] 2 18 2);
    Plain (mkField "SoftwareId" (TOptStr) [154; 1] 2 19 2);
    Plain (mkField "SoftwareVersion" (TOptStr) [162; 1] 2 20 2);
    Plain (mkField "SoftwareStatement" (TOptStr) [170; 1] 2 21 2);
    Plain (mkField "SubjectType" (TOptStr) [178; 1] 2 22 2);
    Plain (mkField "SectorIdentifier" (TOptStr) [186; 1] 2 23 2);
    Plain (mkField "TlsClientAuthSubjectDn" (TOptStr) [194; 1] 2 24 2);
    Plain (mkField "TlsClientAuthSanDns" (TOptStr) [202; 1] 2 25 2);
    Plain (mkField "TlsClientAuthSanUri" (TOptStr) [210; 1] 2 26 2);
    Plain (mkField "TlsClientAuthSanIp" (TOptStr) [218; 1] 2 27 2);
    Plain (mkField "TlsClientAuthSanEmail" (TOptStr) [226; 1] 2 28 2);
    Plain (mkField "TlsClientCertificateBoundAccessTokens" (TOptNum NBool) [232; 1] 3 29 0);
    Plain (mkField "IntrospectionSignedResponseAlg" (TOptStr) [242; 1] 2 30 2);
    Plain (mkField "IntrospectionEncryptedResponseAlg" (TOptStr) [250; 1] 2 31 2);
    Plain (mkField "IntrospectionEncryptedResponseEnc" (TOptStr) [130; 2] 2 32 2);
    Plain (mkField "ResponseModes" (TRepStr) [138; 2] 2 33 2);
    Plain (mkField "RequirePushedAuthorizationRequests" (TOptNum NBool) [144; 2] 3 34 0);
    Plain (mkField "RequireSignedRequestObject" (TOptNum NBool) [152; 2] 3 35 0);
    Plain (mkField "DpopBoundAccessTokens" (TOptNum NBool) [160; 2] 3 36 0)].

(** api/oidc/client/v1/client_vtproto.pb.go: MarshalToSizedBufferVT 712-732, SizeVT 1048-1060, UnmarshalVT 3521-3603 *)
Definition sch_client_SoftwareStatement : schema := [
    Plain (mkField "SoftwareId" (TStr) [10] 1 1 2)].

(** api/oidc/core/v1/error_vtproto.pb.go: MarshalToSizedBufferVT 40-88, SizeVT 101-129, UnmarshalVT 137-350 *)
Definition sch_core_Error : schema := [
    Plain (mkField "Err" (TStr) [10] 1 1 2);
    Plain (mkField "ErrorDescription" (TStr) [18] 1 2 2);
    Plain (mkField "ErrorUri" (TOptStr) [26] 1 3 2);
    Plain (mkField "State" (TOptStr) [34] 1 4 2);
    Plain (mkField "Resource" (TOptStr) [42] 1 5 2)].

(** api/oidc/discovery/v1/resource_vtproto.pb.go: MarshalToSizedBufferVT 40-149, SizeVT 162-230, UnmarshalVT 238-677 *)
Definition sch_discovery_ProtectedResourceMetadata : schema := [
    Plain (mkField "Resource" (TStr) [10] 1 1 2);
    Plain (mkField "AuthorizationServers" (TRepStr) [18] 1 2 2);
    Plain (mkField "JwksUri" (TOptStr) [26] 1 3 2);
    Plain (mkField "ScopesProvided" (TRepStr) [34] 1 4 2);
    Plain (mkField "BearerMethodsSupported" (TRepStr) [42] 1 5 2);
    Plain (mkField "ResourceSigningAlgValuesSupported" (TRepStr) [50] 1 6 2);
    Plain (mkField "ResourceEncryptionAlgValuesSupported" (TRepStr) [58] 1 7 2);
    Plain (mkField "ResourceEncryptionEncValuesSupported" (TRepStr) [66] 1 8 2);
    Plain (mkField "ResourceDocumentation" (TOptStr) [74] 1 9 2);
    Plain (mkField "ResourcePolicyUri" (TOptStr) [82] 1 10 2);
    Plain (mkField "ResourceTosUri" (TOptStr) [90] 1 11 2);
    Plain (mkField "SignedMetadata" (TOptStr) [98] 1 12 2)].

(** api/oidc/discovery/v1/server_vtproto.pb.go: MarshalToSizedBufferVT 39-617, SizeVT 687-983, UnmarshalVT 1015-2789 *)
Definition sch_discovery_ServerMetadata : schema := [
    Plain (mkField "Issuer" (TStr) [10] 1 1 2);
    Plain (mkField "AuthorizationEndpoint" (TStr) [18] 1 2 2);
    Plain (mkField "TokenEndpoint" (TStr) [26] 1 3 2);
    Plain (mkField "JwksUri" (TStr) [34] 1 4 2);
    Plain (mkField "UserinfoEndpoint" (TStr) [42] 1 5 2);
    Plain (mkField "RegistrationEndpoint" (TStr) [50] 1 6 2);
    Plain (mkField "ScopesSupported" (TRepStr) [58] 1 7 2);
    Plain (mkField "ResponseTypesSupported" (TRepStr) [66] 1 8 2);
    Plain (mkField "ResponseModesSupported" (TRepStr) [74] 1 9 2);
    Plain (mkField "GrantTypesSupported" (TRepStr) [82] 1 10 2);
    Plain (mkField "AcrValuesSupported" (TRepStr) [90] 1 11 2);
    Plain (mkField "SubjectTypesSupported" (TRepStr) [98] 1 12 2);
    Plain (mkField "IdTokenSigningAlgValuesSupported" (TRepStr) [106] 1 13 2);
    Plain (mkField "IdTokenEncryptionAlgValuesSupported" (TRepStr) [114] 1 14 2);
    Plain (mkField "IdTokenEncryptionEncValuesSupported" (TRepStr) [122] 1 15 2);
    Plain (mkField "UserinfoSigningAlgValuesSupported" (TRepStr) [130; 1] 2 16 2);
    Plain (mkField "UserinfoEncryptionAlgValuesSupported" (TRepStr) [138; 1] 2 17 2);
    Plain (mkField "UserinfoEncryptionEncValuesSupported" (TRepStr) [146; 1] 2 18 2);
    Plain (mkField "RequestObjectSigningAlgValuesSupported" (TRepStr) [154; 1] 2 19 2);
    Plain (mkField "RequestObjectEncryptionAlgValuesSupported" (TRepStr) [162; 1] 2 20 2);
    Plain (mkField "RequestObjectEncryptionEncValuesSupported" (TRepStr) [170; 1] 2 21 2);
    Plain (mkField "TokenEndpointAuthMethodsSupported" (TRepStr) [178; 1] 2 22 2);
    Plain (mkField "TokenEndpointAuthSigningAlgValuesSupported" (TRepStr) [186; 1] 2 23 2);
    Plain (mkField "DisplayValuesSupported" (TRepStr) [194; 1] 2 24 2);
    Plain (mkField "ClaimTypesSupported" (TRepStr) [202; 1] 2 25 2);
    Plain (mkField "ClaimsSupported" (TRepStr) [210; 1] 2 26 2);
    Plain (mkField "ServiceDocumentation" (TStr) [218; 1] 2 27 2);
    Plain (mkField "ClaimsLocalesSupported" (TRepStr) [226; 1] 2 28 2);
    Plain (mkField "UiLocalesSupported" (TRepStr) [234; 1] 2 29 2);
    Plain (mkField "ClaimsParameterSupported" (TNum NBool) [240; 1] 3 30 0);
    Plain (mkField "RequestParameterSupported" (TNum NBool) [248; 1] 3 31 0);
    Plain (mkField "RequestUriParameterSupported" (TNum NBool) [128; 2] 3 32 0);
    Plain (mkField "RequireRequestUriRegistration" (TNum NBool) [136; 2] 3 33 0);
    Plain (mkField "OpPolicyUri" (TStr) [146; 2] 2 34 2);
    Plain (mkField "OpTosUri" (TStr) [154; 2] 2 35 2);
    Plain (mkField "RevocationEndpoint" (TStr) [162; 2] 2 36 2);
    Plain (mkField "RevocationEndpointAuthMethodsSupported" (TRepStr) [170; 2] 2 37 2);
    Plain (mkField "RevocationEndpointAuthSigningAlgValuesSupported" (TRepStr) [178; 2] 2 38 2);
    Plain (mkField "IntrospectionEndpoint" (TStr) [186; 2] 2 39 2);
    Plain (mkField "IntrospectionEndpointAuthMethodsSupported" (TRepStr) [194; 2] 2 40 2);
    Plain (mkField "IntrospectionEndpointAuthSigningAlgValuesSupported" (TRepStr) [202; 2] 2 41 2);
    Plain (mkField "CodeChallengeMethodsSupported" (TRepStr) [210; 2] 2 42 2);
    Plain (mkField "PushedAuthorizationRequestEndpoint" (TStr) [218; 2] 2 43 2);
    Plain (mkField "PushedAuthorizationRequestEndpointAuthMethodsSupported" (TRepStr) [226; 2] 2 44 2);
    Plain (mkField "MtlsEndpointAliases" (TMsg "discovery.MTLSEndpoints") [234; 2] 2 45 2);
    Plain (mkField "DeviceAuthorizationEndpoint" (TStr) [242; 2] 2 46 2);
    Plain (mkField "DpopSigningAlgValuesSupported" (TRepStr) [250; 2] 2 47 2);
    Plain (mkField "TlsClientCertificateBoundAccessTokens" (TNum NBool) [128; 3] 3 48 0);
    Plain (mkField "AuthorizationSigningAlgValuesSupported" (TRepStr) [138; 3] 2 49 2);
    Plain (mkField "AuthorizationEncryptionAlgValuesSupported" (TRepStr) [146; 3] 2 50 2);
    Plain (mkField "AuthorizationEncryptionEncValuesSupported" (TRepStr) [154; 3] 2 51 2);
    Plain (mkField "AuthorizationResponseIssParameterSupported" (TNum NBool) [160; 3] 3 52 0);
    Plain (mkField "IntrospectionSigningAlgValuesSupported" (TRepStr) [170; 3] 2 53 2);
    Plain (mkField "IntrospectionEncryptionAlgValuesSupported" (TRepStr) [178; 3] 2 54 2);
    Plain (mkField "IntrospectionEncryptionEncValuesSupported" (TRepStr) [186; 3] 2 55 2);
    Plain (mkField "SignedMetadata" (TStr) [194; 3] 2 56 2)].

(** api/oidc/discovery/v1/server_vtproto.pb.go: MarshalToSizedBufferVT 637-685, SizeVT 985-1013, UnmarshalVT 2790-3000 *)
Definition sch_discovery_MTLSEndpoints : schema := [
    Plain (mkField "TokenEndpoint" (TStr) [10] 1 1 2);
    Plain (mkField "RevocationEndpoint" (TStr) [18] 1 2 2);
    Plain (mkField "IntrospectionEndpoint" (TStr) [26] 1 3 2);
    Plain (mkField "PushedAuthorizationRequestEndpoint" (TStr) [34] 1 4 2);
    Plain (mkField "DeviceAuthorizationEndpoint" (TStr) [42] 1 5 2)].

(** api/oidc/flow/v1/flow_api_vtproto.pb.go: MarshalToSizedBufferVT 44-91, SizeVT 853-877, UnmarshalVT 1214-1400 *)
Definition sch_flow_AuthorizeRequest : schema := [
    Plain (mkField "Issuer" (TStr) [10] 1 1 2);
    Plain (mkField "Client" (TMsg "client.Client") [18] 1 2 2);
    Plain (mkField "Subject" (TStr) [26] 1 3 2);
    Plain (mkField "Request" (TMsg "flow.AuthorizationRequest") [34] 1 4 2)].

(** api/oidc/flow/v1/flow_api_vtproto.pb.go: MarshalToSizedBufferVT 111-182, SizeVT 879-918, UnmarshalVT 1401-1689 *)
Definition sch_flow_AuthorizeResponse : schema := [
    Plain (mkField "Error" (TMsg "core.Error") [10] 1 1 2);
    Plain (mkField "Code" (TStr) [18] 1 2 2);
    Plain (mkField "State" (TStr) [26] 1 3 2);
    Plain (mkField "RedirectUri" (TStr) [34] 1 4 2);
    Plain (mkField "ClientId" (TStr) [42] 1 5 2);
    Plain (mkField "ExpiresIn" (TNum NFixed64) [49] 9 6 1);
    Plain (mkField "Issuer" (TStr) [58] 1 7 2);
    Plain (mkField "ResponseMode" (TStr) [66] 1 8 2)].

(** api/oidc/flow/v1/flow_api_vtproto.pb.go: MarshalToSizedBufferVT 202-252, SizeVT 920-944, UnmarshalVT 1690-1880 *)
Definition sch_flow_RegistrationRequest : schema := [
    Plain (mkField "Issuer" (TStr) [10] 1 1 2);
    Plain (mkField "Client" (TMsg "client.Client") [18] 1 2 2);
    Plain (mkField "Request" (TMsg "flow.AuthorizationRequest") [26] 1 3 2);
    Plain (mkField "Confirmation" (TMsg "token.TokenConfirmation") [34] 1 4 2)].

(** api/oidc/flow/v1/flow_api_vtproto.pb.go: MarshalToSizedBufferVT 272-315, SizeVT 946-969, UnmarshalVT 1881-2041 *)
Definition sch_flow_RegistrationResponse : schema := [
    Plain (mkField "Error" (TMsg "core.Error") [10] 1 1 2);
    Plain (mkField "RequestUri" (TStr) [18] 1 2 2);
    Plain (mkField "ExpiresIn" (TNum NFixed64) [25] 9 3 1);
    Plain (mkField "Issuer" (TStr) [34] 1 4 2)].

(** api/oidc/flow/v1/flow_api_vtproto.pb.go: MarshalToSizedBufferVT 335-414, SizeVT 971-1012, UnmarshalVT 2042-2531 *)
Definition sch_flow_TokenRequest : schema := [
    Plain (mkField "Issuer" (TStr) [10] 1 1 2);
    Plain (mkField "Client" (TMsg "client.Client") [18] 1 2 2);
    Plain (mkField "GrantType" (TStr) [26] 1 3 2);
    Plain (mkField "Scope" (TOptStr) [34] 1 4 2);
    Plain (mkField "TokenConfirmation" (TMsg "token.TokenConfirmation") [42] 1 5 2);
    Plain (mkField "Resource" (TRepStr) [50] 1 6 2);
    Plain (mkField "Audience" (TOptStr) [58] 1 7 2);
    Oneof [
        mkField "AuthorizationCode" (TMsg "flow.GrantAuthorizationCode") [82] 1 10 2;
        mkField "ClientCredentials" (TMsg "flow.GrantClientCredentials") [90] 1 11 2;
        mkField "DeviceCode" (TMsg "flow.GrantDeviceCode") [98] 1 12 2;
        mkField "RefreshToken" (TMsg "flow.GrantRefreshToken") [106] 1 13 2;
        mkField "TokenExchange" (TMsg "flow.GrantTokenExchange") [114] 1 14 2]].

(** api/oidc/flow/v1/flow_api_vtproto.pb.go: MarshalToSizedBufferVT 529-603, SizeVT 1074-1110, UnmarshalVT 2532-2824 *)
Definition sch_flow_TokenResponse : schema := [
    Plain (mkField "Error" (TMsg "core.Error") [10] 1 1 2);
    Plain (mkField "AccessToken" (TMsg "token.Token") [18] 1 2 2);
    Plain (mkField "RefreshToken" (TMsg "token.Token") [26] 1 3 2);
    Plain (mkField "IdToken" (TMsg "token.Token") [34] 1 4 2);
    Plain (mkField "Issuer" (TStr) [42] 1 5 2);
    Plain (mkField "IssuedTokenType" (TOptStr) [50] 1 6 2);
    Plain (mkField "Scope" (TOptStr) [58] 1 7 2)].

(** api/oidc/flow/v1/flow_api_vtproto.pb.go: MarshalToSizedBufferVT 623-664, SizeVT 1112-1136, UnmarshalVT 2825-3005 *)
Definition sch_flow_DeviceAuthorizationRequest : schema := [
    Plain (mkField "Issuer" (TStr) [10] 1 1 2);
    Plain (mkField "ClientId" (TStr) [18] 1 2 2);
    Plain (mkField "Scope" (TOptStr) [26] 1 3 2);
    Plain (mkField "Audience" (TOptStr) [34] 1 4 2)].

(** api/oidc/flow/v1/flow_api_vtproto.pb.go: MarshalToSizedBufferVT 684-754, SizeVT 1138-1176, UnmarshalVT 3006-3273 *)
Definition sch_flow_DeviceAuthorizationResponse : schema := [
    Plain (mkField "Error" (TMsg "core.Error") [10] 1 1 2);
    Plain (mkField "DeviceCode" (TStr) [18] 1 2 2);
    Plain (mkField "UserCode" (TStr) [26] 1 3 2);
    Plain (mkField "VerificationUri" (TStr) [34] 1 4 2);
    Plain (mkField "VerificationUriComplete" (TOptStr) [42] 1 5 2);
    Plain (mkField "ExpiresIn" (TNum NFixed64) [49] 9 6 1);
    Plain (mkField "Interval" (TNum NFixed64) [57] 9 7 1);
    Plain (mkField "Issuer" (TStr) [66] 1 8 2)].

(** api/oidc/flow/v1/flow_api_vtproto.pb.go: MarshalToSizedBufferVT 774-808, SizeVT 1178-1198, UnmarshalVT 3274-3420 *)
Definition sch_flow_DeviceCodeValidationRequest : schema := [
    Plain (mkField "Issuer" (TStr) [10] 1 1 2);
    Plain (mkField "UserCode" (TStr) [18] 1 2 2);
    Plain (mkField "Subject" (TStr) [26] 1 3 2)].

(** api/oidc/flow/v1/flow_api_vtproto.pb.go: MarshalToSizedBufferVT 828-851, SizeVT 1200-1212, UnmarshalVT 3421-3507 *)
Definition sch_flow_DeviceCodeValidationResponse : schema := [
    Plain (mkField "Error" (TMsg "core.Error") [10] 1 1 2)].

(** api/oidc/flow/v1/flow_vtproto.pb.go: MarshalToSizedBufferVT 40-230, SizeVT 243-344, UnmarshalVT 352-1138 *)
Definition sch_flow_AuthorizationRequest : schema := [
    Plain (mkField "Scope" (TStr) [10] 1 1 2);
    Plain (mkField "ResponseType" (TStr) [18] 1 2 2);
    Plain (mkField "ClientId" (TStr) [26] 1 3 2);
    Plain (mkField "RedirectUri" (TStr) [34] 1 4 2);
    Plain (mkField "State" (TStr) [42] 1 5 2);
    Plain (mkField "ResponseMode" (TOptStr) [50] 1 6 2);
    Plain (mkField "Nonce" (TStr) [58] 1 7 2);
    Plain (mkField "Display" (TOptStr) [66] 1 8 2);
    Plain (mkField "Prompt" (TOptStr) [74] 1 9 2);
    Plain (mkField "MaxAge" (TOptNum NUint64) [80] 1 10 0);
    Plain (mkField "UiLocales" (TOptStr) [90] 1 11 2);
    Plain (mkField "IdTokenHint" (TOptStr) [98] 1 12 2);
    Plain (mkField "AcrValues" (TOptStr) [106] 1 13 2);
    Plain (mkField "Request" (TOptStr) [114] 1 14 2);
    Plain (mkField "RequestUri" (TOptStr) [122] 1 15 2);
    Plain (mkField "CodeChallenge" (TStr) [130; 1] 2 16 2);
    Plain (mkField "CodeChallengeMethod" (TStr) [138; 1] 2 17 2);
    Plain (mkField "Audience" (TStr) [146; 1] 2 18 2);
    Plain (mkField "DpopProof" (TOptStr) [154; 1] 2 19 2);
    Plain (mkField "Resource" (TRepStr) [162; 1] 2 20 2);
    Plain (mkField "Iss" (TOptStr) [170; 1] 2 21 2);
    Plain (mkField "LoginHintToken" (TOptStr) [178; 1] 2 22 2);
    Plain (mkField "LoginHint" (TOptStr) [186; 1] 2 23 2)].

(** api/oidc/flow/v1/token_grant_vtproto.pb.go: MarshalToSizedBufferVT 39-80, SizeVT 270-294, UnmarshalVT 368-547 *)
Definition sch_flow_GrantAuthorizationCode : schema := [
    Plain (mkField "Code" (TStr) [10] 1 1 2);
    Plain (mkField "RedirectUri" (TStr) [18] 1 2 2);
    Plain (mkField "CodeVerifier" (TStr) [26] 1 3 2);
    Plain (mkField "DpopJkt" (TOptStr) [34] 1 4 2)].

(** api/oidc/flow/v1/token_grant_vtproto.pb.go: MarshalToSizedBufferVT 100-120, SizeVT 296-308, UnmarshalVT 548-630 *)
Definition sch_flow_GrantRefreshToken : schema := [
    Plain (mkField "RefreshToken" (TStr) [10] 1 1 2)].

(** api/oidc/flow/v1/token_grant_vtproto.pb.go: MarshalToSizedBufferVT 140-167, SizeVT 310-326, UnmarshalVT 631-745 *)
Definition sch_flow_GrantDeviceCode : schema := [
    Plain (mkField "DeviceCode" (TStr) [10] 1 1 2);
    Plain (mkField "ClientId" (TStr) [18] 1 2 2)].

(** api/oidc/flow/v1/token_grant_vtproto.pb.go: MarshalToSizedBufferVT 187-200, SizeVT 328-336, UnmarshalVT 746-796 *)
Definition sch_flow_GrantClientCredentials : schema := [
    ].

(** api/oidc/flow/v1/token_grant_vtproto.pb.go: MarshalToSizedBufferVT 220-268, SizeVT 338-366, UnmarshalVT 797-1010 *)
Definition sch_flow_GrantTokenExchange : schema := [
    Plain (mkField "RequestedTokenType" (TOptStr) [10] 1 1 2);
    Plain (mkField "SubjectToken" (TStr) [18] 1 2 2);
    Plain (mkField "SubjectTokenType" (TStr) [26] 1 3 2);
    Plain (mkField "ActorToken" (TOptStr) [34] 1 4 2);
    Plain (mkField "ActorTokenType" (TOptStr) [42] 1 5 2)].

(** api/oidc/resource/v1/resource_vtproto.pb.go: MarshalToSizedBufferVT 40-76, SizeVT 89-111, UnmarshalVT 119-265 *)
Definition sch_resource_Resource : schema := [
    Plain (mkField "Urn" (TStr) [10] 1 1 2);
    Plain (mkField "Description" (TStr) [18] 1 2 2);
    Plain (mkField "Urls" (TRepStr) [26] 1 3 2)].

(** api/oidc/session/v1/session_vtproto.pb.go: MarshalToSizedBufferVT 44-91, SizeVT 210-234, UnmarshalVT 290-476 *)
Definition sch_session_AuthorizationCodeSession : schema := [
    Plain (mkField "Client" (TMsg "client.Client") [10] 1 1 2);
    Plain (mkField "Issuer" (TStr) [18] 1 2 2);
    Plain (mkField "Subject" (TStr) [26] 1 3 2);
    Plain (mkField "Request" (TMsg "flow.AuthorizationRequest") [34] 1 4 2)].

(** api/oidc/session/v1/session_vtproto.pb.go: MarshalToSizedBufferVT 111-197, SizeVT 236-282, UnmarshalVT 477-823 *)
Definition sch_session_DeviceCodeSession : schema := [
    Plain (mkField "Client" (TMsg "client.Client") [10] 1 1 2);
    Plain (mkField "Issuer" (TStr) [18] 1 2 2);
    Plain (mkField "ExpiresAt" (TNum NFixed64) [25] 9 3 1);
    Plain (mkField "Request" (TMsg "flow.DeviceAuthorizationRequest") [34] 1 4 2);
    Plain (mkField "Status" (TNum NEnum) [40] 1 5 0);
    Plain (mkField "DeviceCode" (TStr) [50] 1 6 2);
    Plain (mkField "ConfirmationCode" (TStr) [58] 1 7 2);
    Plain (mkField "Subject" (TOptStr) [66] 1 8 2);
    Plain (mkField "Scope" (TOptStr) [74] 1 9 2);
    Plain (mkField "Audience" (TOptStr) [82] 1 10 2)].

(** api/oidc/token/v1/introspection_api_vtproto.pb.go: MarshalToSizedBufferVT 42-86, SizeVT 141-165, UnmarshalVT 185-368 *)
Definition sch_token_IntrospectRequest : schema := [
    Plain (mkField "Issuer" (TStr) [10] 1 1 2);
    Plain (mkField "Client" (TMsg "client.Client") [18] 1 2 2);
    Plain (mkField "Token" (TStr) [26] 1 3 2);
    Plain (mkField "TokenTypeHint" (TOptStr) [34] 1 4 2)].

(** api/oidc/token/v1/introspection_api_vtproto.pb.go: MarshalToSizedBufferVT 106-139, SizeVT 167-183, UnmarshalVT 369-491 *)
Definition sch_token_IntrospectResponse : schema := [
    Plain (mkField "Error" (TMsg "core.Error") [10] 1 1 2);
    Plain (mkField "Token" (TMsg "token.Token") [18] 1 2 2)].

(** api/oidc/token/v1/revocation_api_vtproto.pb.go: MarshalToSizedBufferVT 42-86, SizeVT 131-155, UnmarshalVT 171-354 *)
Definition sch_token_RevokeRequest : schema := [
    Plain (mkField "Issuer" (TStr) [10] 1 1 2);
    Plain (mkField "Client" (TMsg "client.Client") [18] 1 2 2);
    Plain (mkField "Token" (TStr) [26] 1 3 2);
    Plain (mkField "TokenTypeHint" (TOptStr) [34] 1 4 2)].

(** api/oidc/token/v1/revocation_api_vtproto.pb.go: MarshalToSizedBufferVT 106-129, SizeVT 157-169, UnmarshalVT 355-441 *)
Definition sch_token_RevokeResponse : schema := [
    Plain (mkField "Error" (TMsg "core.Error") [10] 1 1 2)].

(** api/oidc/token/v1/token_vtproto.pb.go: MarshalToSizedBufferVT 41-120, SizeVT 419-463, UnmarshalVT 592-876 *)
Definition sch_token_TokenMeta : schema := [
    Plain (mkField "Issuer" (TStr) [10] 1 1 2);
    Plain (mkField "Subject" (TStr) [18] 1 2 2);
    Plain (mkField "IssuedAt" (TNum NFixed64) [25] 9 3 1);
    Plain (mkField "NotBefore" (TNum NFixed64) [33] 9 4 1);
    Plain (mkField "ExpiresAt" (TNum NFixed64) [41] 9 5 1);
    Plain (mkField "ClientId" (TStr) [50] 1 6 2);
    Plain (mkField "Scope" (TStr) [58] 1 7 2);
    Plain (mkField "Audience" (TStr) [66] 1 8 2);
    Plain (mkField "Acr" (TOptStr) [74] 1 9 2);
    Plain (mkField "AuthTime" (TOptNum NFixed64) [81] 9 10 1)].

(** api/oidc/token/v1/token_vtproto.pb.go: MarshalToSizedBufferVT 140-184, SizeVT 465-489, UnmarshalVT 877-1059 *)
Definition sch_token_Actor : schema := [
    Plain (mkField "Issuer" (TStr) [10] 1 1 2);
    Plain (mkField "Subject" (TStr) [18] 1 2 2);
    Plain (mkField "ClientId" (TStr) [26] 1 3 2);
    Plain (mkField "Act" (TMsg "token.Actor") [34] 1 4 2)].

(** api/oidc/token/v1/token_vtproto.pb.go: MarshalToSizedBufferVT 204-299, SizeVT 491-541, UnmarshalVT 1060-1417 *)
Definition sch_token_Token : schema := [
    Plain (mkField "Issuer" (TStr) [10] 1 1 2);
    Plain (mkField "TokenType" (TNum NEnum) [16] 1 2 0);
    Plain (mkField "TokenId" (TStr) [26] 1 3 2);
    Plain (mkField "Metadata" (TMsg "token.TokenMeta") [34] 1 4 2);
    Plain (mkField "Status" (TNum NEnum) [40] 1 5 0);
    Plain (mkField "Value" (TStr) [50] 1 6 2);
    Plain (mkField "Phantom" (TOptStr) [58] 1 7 2);
    Plain (mkField "Confirmation" (TMsg "token.TokenConfirmation") [66] 1 8 2);
    Plain (mkField "Actor" (TRepMsg "token.Actor") [74] 1 9 2);
    Plain (mkField "MayAct" (TRepMsg "token.Actor") [82] 1 10 2)].

(** api/oidc/token/v1/token_vtproto.pb.go: MarshalToSizedBufferVT 319-339, SizeVT 543-555, UnmarshalVT 1418-1500 *)
Definition sch_token_TokenConfirmation : schema := [
    Plain (mkField "Jkt" (TStr) [10] 1 1 2)].

(** api/oidc/token/v1/token_vtproto.pb.go: MarshalToSizedBufferVT 359-406, SizeVT 557-584, UnmarshalVT 1501-1691 *)
Definition sch_token_OAuthTokenResponse : schema := [
    Plain (mkField "AccessToken" (TStr) [10] 1 1 2);
    Plain (mkField "TokenType" (TStr) [18] 1 2 2);
    Plain (mkField "ExpiresIn" (TNum NFixed64) [25] 9 3 1);
    Plain (mkField "RefreshToken" (TOptStr) [34] 1 4 2);
    Plain (mkField "IdToken" (TOptStr) [42] 1 5 2)].

(** All messages by name. *)
Definition vt_table : list (string * schema) := [
    ("client.AuthenticateRequest", sch_client_AuthenticateRequest);
    ("client.AuthenticateResponse", sch_client_AuthenticateResponse);
    ("client.RegisterRequest", sch_client_RegisterRequest);
    ("client.RegisterResponse", sch_client_RegisterResponse);
    ("client.Client", sch_client_Client);
    ("client.ClientMeta", sch_client_ClientMeta);
    ("client.SoftwareStatement", sch_client_SoftwareStatement);
    ("core.Error", sch_core_Error);
    ("discovery.ProtectedResourceMetadata", sch_discovery_ProtectedResourceMetadata);
    ("discovery.ServerMetadata", sch_discovery_ServerMetadata);
    ("discovery.MTLSEndpoints", sch_discovery_MTLSEndpoints);
    ("flow.AuthorizeRequest", sch_flow_AuthorizeRequest);
    ("flow.AuthorizeResponse", sch_flow_AuthorizeResponse);
    ("flow.RegistrationRequest", sch_flow_RegistrationRequest);
    ("flow.RegistrationResponse", sch_flow_RegistrationResponse);
    ("flow.TokenRequest", sch_flow_TokenRequest);
    ("flow.TokenResponse", sch_flow_TokenResponse);
    ("flow.DeviceAuthorizationRequest", sch_flow_DeviceAuthorizationRequest);
    ("flow.DeviceAuthorizationResponse", sch_flow_DeviceAuthorizationResponse);
    ("flow.DeviceCodeValidationRequest", sch_flow_DeviceCodeValidationRequest);
    ("flow.DeviceCodeValidationResponse", sch_flow_DeviceCodeValidationResponse);
    ("flow.AuthorizationRequest", sch_flow_AuthorizationRequest);
    ("flow.GrantAuthorizationCode", sch_flow_GrantAuthorizationCode);
    ("flow.GrantRefreshToken", sch_flow_GrantRefreshToken);
    ("flow.GrantDeviceCode", sch_flow_GrantDeviceCode);
    ("flow.GrantClientCredentials", sch_flow_GrantClientCredentials);
    ("flow.GrantTokenExchange", sch_flow_GrantTokenExchange);
    ("resource.Resource", sch_resource_Resource);
    ("session.AuthorizationCodeSession", sch_session_AuthorizationCodeSession);
    ("session.DeviceCodeSession", sch_session_DeviceCodeSession);
    ("token.IntrospectRequest", sch_token_IntrospectRequest);
    ("token.IntrospectResponse", sch_token_IntrospectResponse);
    ("token.RevokeRequest", sch_token_RevokeRequest);
    ("token.RevokeResponse", sch_token_RevokeResponse);
    ("token.TokenMeta", sch_token_TokenMeta);
    ("token.Actor", sch_token_Actor);
    ("token.Token", sch_token_Token);
    ("token.TokenConfirmation", sch_token_TokenConfirmation);
    ("token.OAuthTokenResponse", sch_token_OAuthTokenResponse)].

Definition vt_env : wire_env := fun name =>
  match find (fun p => String.eqb (fst p) name) vt_table with Some (_, s) => Some s | None => None end.
