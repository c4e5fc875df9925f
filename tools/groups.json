{
 "PropsCode": {
  "title": "Authorization codes",
  "files": [
   "PfCode",
   "PfCode2"
  ],
  "requires": [
   "Meet"
  ]
 },
 "PropsToken": {
  "title": "Tokens",
  "files": [
   "PfToken",
   "PfErr",
   "PfErr2",
   "PfToken2",
   "PfStore",
   "PfStore2",
   "PfStore3"
  ],
  "requires": [
   "Meet"
  ]
 },
 "PropsDevice": {
  "title": "The device flow",
  "files": [
   "PfDev",
   "PfDev2",
   "PfDev3"
  ],
  "requires": [
   "Meet",
   "PfDev3"
  ]
 },
 "PropsAuthz": {
  "title": "Authorization requests and issuers",
  "files": [
   "PfAuthz",
   "PfIssuer"
  ],
  "requires": [
   "Meet"
  ]
 },
 "PropsAuthn": {
  "title": "Client authentication and DPoP",
  "files": [
   "PfCompare",
   "PfAuthn"
  ],
  "requires": [
   "Meet"
  ]
 },
 "PropsSdk": {
  "title": "The SDK",
  "files": [
   "PfBase62",
   "PfVerifiable",
   "PfSdk"
  ],
  "requires": [
   "MeetSdk"
  ],
  "pre": "Local Open Scope N_scope.\n"
 },
 "PropsRand": {
  "title": "The shared random generator",
  "files": [
   "PfRandomness"
  ],
  "requires": [
   "MeetRand"
  ],
  "pre": "Local Open Scope list_scope.\n"
 },
 "PropsTok": {
  "title": "Signed tokens",
  "files": [
   "PfTok",
   "PfTok2"
  ],
  "requires": [
   "MeetTok"
  ],
  "pre": "Local Open Scope N_scope.\n"
 },
 "PropsHttp": {
  "title": "The HTTP endpoints, the client and the resource server",
  "files": [
   "PfHttp",
   "PfHttp2",
   "PfHttp3",
   "PfHttp4",
   "PfHttp5",
   "PfHttp6"
  ],
  "requires": [
   "MeetHttp"
  ]
 },
 "PropsWeb": {
  "title": "HTTP histories",
  "files": [
   "PfWeb2",
   "PfWeb3",
   "PfWeb4",
   "PfWeb5",
   "PfWait",
   "PfWebRace"
  ],
  "requires": [
   "MeetWeb",
   "PfWait",
   "PfWebRace"
  ]
 },
 "PropsLive": {
  "title": "What is bound to succeed",
  "files": [
   "PfLive",
   "PfLive2"
  ],
  "requires": [
   "MeetLive"
  ]
 },
 "PropsGate": {
  "title": "Who may introspect, revoke and approve",
  "files": [
   "PfGate"
  ],
  "requires": [
   "MeetLive"
  ]
 },
 "PropsWire": {
  "title": "The protobuf codec",
  "files": [
   "PfWire"
  ],
  "requires": [
   "MeetWire"
  ],
  "pre": "From Coq Require Import Permutation.\nLocal Open Scope Z_scope.\nLocal Open Scope list_scope.\n"
 },
 "PropsWebLive": {
  "title": "What is bound to succeed over HTTP",
  "files": [
   "PfWebLive2",
   "PfWebLive3",
   "PfWebLive4",
   "PfWebLive5",
   "PfWebLive6",
   "PfWebLive7"
  ],
  "requires": [
   "MeetWebLive"
  ]
 },
 "PropsFlow": {
  "title": "The authorization code flow from end to end",
  "files": [
   "PfFlow",
   "PfFlow2"
  ],
  "requires": [
   "MeetFlow"
  ]
 },
 "PropsSteps": {
  "title": "The token store under concurrency",
  "files": [
   "PfSteps",
   "PfSteps2",
   "PfSteps3",
   "PfSteps4"
  ],
  "requires": [
   "MeetSteps"
  ]
 },
 "PropsAttest": {
  "title": "Attested clients",
  "files": [
   "PfAttest"
  ],
  "requires": [
   "MeetAttest"
  ]
 },
 "PropsMetadata": {
  "title": "Metadata and discovery",
  "files": [
   "PfMetadata",
   "PfDiscovery"
  ],
  "requires": [
   "PfMetadata",
   "PfDiscovery"
  ]
 },
 "PropsJsonReq": {
  "title": "Signed authorization requests",
  "files": [
   "PfJsonReq"
  ],
  "requires": [
   "MeetJsonReq"
  ]
 },
 "PropsPurpose": {
  "title": "What signed objects are made for and taken for",
  "files": [
   "PfPurpose"
  ],
  "requires": [
   "MeetPurpose"
  ]
 },
 "PropsFormats": {
  "title": "Signed objects in three formats",
  "files": [
   "PfFormats"
  ],
  "requires": [
   "MeetFormats"
  ]
 },
 "PropsRegistry": {
  "title": "The client registry",
  "files": [
   "PfRegistry"
  ],
  "requires": [
   "MeetRegistry"
  ]
 },
 "PropsForm": {
  "title": "Forms, redirects and headers as they are written",
  "files": [
   "PfForm",
   "PfHeaders"
  ],
  "requires": [
   "MeetForm"
  ]
 },
 "PropsMint": {
  "title": "Token values and where they come from",
  "files": [
   "PfMint"
  ],
  "requires": [
   "MeetMint"
  ]
 },
 "PropsAnnounced": {
  "title": "What the metadata announces",
  "files": [
   "PfAnnounced"
  ],
  "requires": [
   "MeetAnnounced"
  ]
 },
 "PropsSent": {
  "title": "Who is sent a token",
  "files": [
   "PfSent"
  ],
  "requires": [
   "MeetSent"
  ]
 },
 "PropsAlways": {
  "title": "What always goes wrong",
  "files": [
   "PfAlways"
  ],
  "requires": [
   "MeetAlways"
  ]
 },
 "PropsKeys": {
  "title": "The keys of the server and the profile of its clients",
  "files": [
   "PfKeys"
  ],
  "requires": [
   "MeetKeys"
  ]
 }
}