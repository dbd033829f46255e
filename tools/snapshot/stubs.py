"""The declarations of the standard library that the snapshot inputs use, as Go source; bodies left out."""
STUBS = {
"fmt": """package fmt
import "io"
type Stringer interface { String() string }
func Print(a ...any) (n int, err error)
func Println(a ...any) (n int, err error)
func Printf(format string, a ...any) (n int, err error)
func Sprintf(format string, a ...any) string
func Fprint(w io.Writer, a ...any) (n int, err error)
""",
"io": """package io
type Writer interface { Write(p []byte) (n int, err error) }
""",
"context": """package context
type Context interface {
	Done() <-chan struct{}
	Err() error
	Value(key any) any
}
func Background() Context
""",
"errors": """package errors
func New(text string) error
""",
"embed": """package embed
""",
"strings": """package strings
func Contains(s, substr string) bool
""",
"slices": """package slices
func All[E any](s []E) func(yield func(int, E) bool)
""",
"sync": """package sync
type WaitGroup struct { n int }
func (wg *WaitGroup) Add(delta int)
func (wg *WaitGroup) Done()
func (wg *WaitGroup) Wait()
""",
"os/exec": """package exec
import "io"
type Cmd struct {
	Path string
	Stdout io.Writer
}
func (c *Cmd) String() string
func (c *Cmd) Run() error
""",
"testing": """package testing
type common struct { failed bool }
func (c *common) Log(args ...any)
type T struct { common }
""",
"net/http": """package http
import "io"
type Header map[string][]string
type ResponseWriter interface {
	Header() Header
	Write([]byte) (int, error)
	WriteHeader(statusCode int)
}
type Request struct {
	Method string
	Body io.Writer
}
type Handler interface { ServeHTTP(ResponseWriter, *Request) }
type Client struct { Jar int }
var DefaultClient = &Client{}
const StatusOK = 200
func CanonicalHeaderKey(s string) string
""",
}
